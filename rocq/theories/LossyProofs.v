(** Stop-and-wait over a network that loses packets and answers (C87). *)
From Verif Require Export SpecLossy BulkProofs.
Require Import ZifyBool ZifyNat ZifyN.
Local Open Scope Z_scope.
Ltac Zify.zify_post_hook ::= Z.div_mod_to_equations.

Notation all_timeouts ks := (Forall (fun k => is_timeout k = true) ks).

(** ** The speaker's waits *)
Lemma resend_once p fl s : s_send_window (sk s) = p :: fl -> timer_fits s -> all_sent s ->
  exists s', handle_receive_timeout s = (Ret tt, s') /\ sk s' = ss_send_window (set_timestamp (clock_now s) p :: fl) (backed_off (sk s)) /\
    w_sent (wd s') = w_sent (wd s) ++ [(s_connected_to (sk s), set_timestamp (clock_now s) p)] /\ w_in (wd s') = w_in (wd s) /\ w_send (wd s') = w_send (wd s) /\ w_chk (wd s') = w_chk (wd s).
Proof.
  intros HW HT HX. rewrite timeout_start by exact HT. rewrite HW. unfold bind at 1, now_microseconds. unfold bind at 1, upd_sk at 1. unfold bind at 1. rewrite send_ok_eq by (apply all_sent_ok; exact HX).
  eexists. split; [reflexivity|]. split; [reflexivity|]. unfold tx_state. match goal with |- context [tx_ok ?t] => change (tx_ok t) with (tx_ok s) end. rewrite (all_sent_ok _ HX). repeat split; reflexivity.
Qed.
(** The socket after its timer expired: only the timer, the congestion window and the timestamp of the first packet in flight are different. *)
Definition waited (w : list packet) (k k' : socket) : Prop := exists c t, k' = ss_send_window w (ss_cwnd c (ss_congestion_timeout t k)).
Lemma wait_resends (P : packet -> Prop) (HP : forall t q, P q -> P (set_timestamp t q)) ks : forall p fl s retries rest f, all_timeouts ks -> w_in (wd s) = map RxErr ks ++ rest ->
  s_send_window (sk s) = p :: fl -> P p -> all_sent s -> 0 <= s_congestion_timeout (sk s) -> s_congestion_timeout (sk s) * 2 ^ Z.of_nat (length ks) < 2 ^ 64 ->
  retries + Z.of_nat (length ks) <= s_max_retries (sk s) ->
  exists ps q s', loop (length ks + f) wait_body retries s = loop f wait_body (retries + Z.of_nat (length ks)) s' /\ length ps = length ks /\ Forall P ps /\ P q /\
    waited (q :: fl) (sk s) (sk s') /\ w_in (wd s') = rest /\ w_send (wd s') = w_send (wd s) /\ w_chk (wd s') = w_chk (wd s) /\ w_sent (wd s') = w_sent (wd s) ++ map (pair (s_connected_to (sk s))) ps.
Proof.
  induction ks as [|k ks IH]; intros p fl s retries rest f HK HI HW Hp HA H0 HT HM.
  - exists [], p, s. cbn [length Nat.add Z.of_nat map]. rewrite Z.add_0_r, app_nil_r. repeat (split; [auto; reflexivity|]). split; [|auto].
    exists (s_cwnd (sk s)), (s_congestion_timeout (sk s)). rewrite <- HW. destruct (sk s); reflexivity.
  - inversion_clear HK. cbn [map app] in HI. cbn [length] in *. rewrite Nat2Z.inj_succ, Z.pow_succ_r in HT by lia.
    assert (HPw : 0 < 2 ^ Z.of_nat (length ks)) by (apply Z.pow_pos_nonneg; lia).
    set (s1 := mkSt (sk s) (sw_in (map RxErr ks ++ rest) (wd s))).
    destruct (resend_once p fl s1) as (s2 & E & K2 & L2 & I2 & X2 & C2); [exact HW|unfold timer_fits; change (sk s1) with (sk s); nia|exact HA|].
    change (sk s1) with (sk s) in *. set (p1 := set_timestamp _ p) in *.
    destruct (IH p1 fl s2 (retries + 1) rest f) as (ps & q & s3 & E3 & N3 & F3 & Q3 & (c & t & W3) & I3 & X3 & C3 & L3); auto.
    { rewrite K2. reflexivity. } { apply HP. exact Hp. } { intros i. rewrite X2. apply HA. } { rewrite K2. unfold backed_off. sproj. lia. } { rewrite K2. unfold backed_off. sproj. nia. } { rewrite K2. unfold backed_off. sproj. lia. }
    exists (p1 :: ps), q, s3. split; [|split; [|split; [|split; [|split; [|split; [|split; [|split]]]]]]].
    + cbn [Nat.add loop]. unfold bind at 1, wait_body at 1, bind at 1, get_sk at 1.
      replace (s_max_retries (sk s) <=? retries) with false by lia. unfold bind at 1, udp_recv. rewrite HI. fold s1. rewrite H. unfold bind at 1. rewrite E. unfold ret at 1.
      rewrite E3. f_equal. lia.
    + cbn [length]. now rewrite N3.
    + constructor; [apply HP; exact Hp|exact F3].
    + exact Q3.
    + exists c, t. rewrite W3, K2. destruct (sk s); reflexivity.
    + exact I3.
    + rewrite X3. exact X2.
    + rewrite C3. exact C2.
    + rewrite L3, L2, K2. cbn [map]. rewrite <- app_assoc. reflexivity.
Qed.
Lemma recv_waited n s b src s1 : wait_datagram s = (Ret (b, src), s1) -> recv n s = process_datagram (recv_fuel (length (w_in (wd s)))) n b src s1.
Proof.
  intros H. unfold recv, bind at 1, event_fuel. change (recv_fuel (S ?x) n) with (recv_body (recv_fuel x) n). unfold recv_body, bind at 1. rewrite H. reflexivity.
Qed.
Lemma recv_pends n s s1 : wait_datagram s = (Fail Pend, s1) -> recv n s = (Fail Pend, s1).
Proof.
  intros H. unfold recv, bind at 1, event_fuel. change (recv_fuel (S ?x) n) with (recv_body (recv_fuel x) n). unfold recv_body, bind at 1. rewrite H. reflexivity.
Qed.
Lemma speaker_waits (P : packet -> Prop) (HP : forall t q, P q -> P (set_timestamp t q)) ks p fl s rest : all_timeouts ks -> w_in (wd s) = map RxErr ks ++ rest ->
  s_send_window (sk s) = p :: fl -> P p -> all_sent s -> 0 <= s_congestion_timeout (sk s) -> s_congestion_timeout (sk s) * 2 ^ Z.of_nat (length ks) < 2 ^ 64 -> Z.of_nat (length ks) < s_max_retries (sk s) ->
  exists ps q s', length ps = length ks /\ Forall P ps /\ P q /\ waited (q :: fl) (sk s) (sk s') /\ w_in (wd s') = rest /\ w_send (wd s') = w_send (wd s) /\ w_chk (wd s') = w_chk (wd s) /\
    w_sent (wd s') = w_sent (wd s) ++ map (pair (s_connected_to (sk s))) ps /\
    match rest with [] => wait_datagram s = (Fail Pend, s') | RxDgram d src :: _ => wait_datagram s = (Ret (firstn 1520 d, src), rx_state s') | _ => True end.
Proof.
  intros HK HI HW Hp HA H0 HT HM. destruct (wait_resends P HP ks p fl s 0 rest (S (length rest)) HK HI HW Hp HA H0 HT ltac:(lia)) as (ps & q & s' & E & N & F & Q & W & I & X & C & L).
  exists ps, q, s'. repeat (split; [assumption|]). destruct W as (c & t & W). assert (HM' : s_max_retries (sk s') = s_max_retries (sk s)) by (rewrite W; reflexivity).
  rewrite wait_datagram_eq, HI, app_length, map_length. replace (S (length ks + length rest)) with (length ks + S (length rest))%nat by lia.
  rewrite E. destruct rest as [|[d src|k|] rest]; [| |exact Logic.I|exact Logic.I]; cbn [loop]; unfold bind at 1, wait_body at 1, bind at 1, get_sk at 1;
    (replace (s_max_retries (sk s') <=? 0 + Z.of_nat (length ks)) with false by lia); unfold bind, udp_recv; rewrite I; [reflexivity|]. unfold ret, rx_state. rewrite I. reflexivity.
Qed.

(** ** The reader's waits *)
Lemma idle_once s : s_send_window (sk s) = [] -> s_state (sk s) = Connected -> timer_fits s -> all_sent s ->
  exists s' xs, handle_receive_timeout s = (Ret tt, s') /\ sk s' = backed_off (sk s) /\ w_sent (wd s') = w_sent (wd s) ++ xs /\ w_in (wd s') = w_in (wd s) /\ w_send (wd s') = w_send (wd s).
Proof.
  intros HW HS HT HX. destruct (timeout_acks s HW ltac:(rewrite HS; discriminate) ltac:(rewrite HS; discriminate) HT HX) as (s' & t1 & t2 & t3 & E & K & X & L & I).
  exists s'. eexists. split; [exact E|]. split; [exact K|]. split; [exact L|]. auto.
Qed.
Lemma wait_idles ks : forall s retries rest f, all_timeouts ks -> w_in (wd s) = map RxErr ks ++ rest -> s_send_window (sk s) = [] -> s_state (sk s) = Connected -> all_sent s ->
  0 <= s_congestion_timeout (sk s) -> s_congestion_timeout (sk s) * 2 ^ Z.of_nat (length ks) < 2 ^ 64 -> retries + Z.of_nat (length ks) <= s_max_retries (sk s) ->
  exists xs s' c, loop (length ks + f) wait_body retries s = loop f wait_body (retries + Z.of_nat (length ks)) s' /\
    sk s' = ss_cwnd c (ss_congestion_timeout (s_congestion_timeout (sk s) * 2 ^ Z.of_nat (length ks)) (sk s)) /\ w_in (wd s') = rest /\ w_send (wd s') = w_send (wd s) /\ w_sent (wd s') = w_sent (wd s) ++ xs.
Proof.
  induction ks as [|k ks IH]; intros s retries rest f HK HI HW HS HA H0 HT HM.
  - exists [], s, (s_cwnd (sk s)). cbn [length Nat.add Z.of_nat map]. rewrite Z.add_0_r, app_nil_r, Z.pow_0_r, Z.mul_1_r. repeat (split; [auto; reflexivity|]). split; [|auto]. destruct (sk s); reflexivity.
  - inversion_clear HK. cbn [map app] in HI. cbn [length] in *. rewrite Nat2Z.inj_succ, Z.pow_succ_r in * by lia.
    assert (HPw : 0 < 2 ^ Z.of_nat (length ks)) by (apply Z.pow_pos_nonneg; lia).
    set (s1 := mkSt (sk s) (sw_in (map RxErr ks ++ rest) (wd s))).
    destruct (idle_once s1) as (s2 & xs & E & K2 & L2 & I2 & X2); [exact HW|exact HS|unfold timer_fits; change (sk s1) with (sk s); nia|exact HA|].
    change (sk s1) with (sk s) in *.
    destruct (IH s2 (retries + 1) rest f) as (ys & s3 & c & E3 & W3 & I3 & X3 & L3); auto.
    { rewrite K2. exact HW. } { rewrite K2. exact HS. } { intros i. rewrite X2. apply HA. } { rewrite K2. unfold backed_off. sproj. lia. } { rewrite K2. unfold backed_off. sproj. nia. } { rewrite K2. unfold backed_off. sproj. lia. }
    exists (xs ++ ys), s3, c. split; [|split; [|split; [exact I3|split]]].
    + cbn [Nat.add loop]. unfold bind at 1, wait_body at 1, bind at 1, get_sk at 1.
      replace (s_max_retries (sk s) <=? retries) with false by lia. unfold bind at 1, udp_recv. rewrite HI. fold s1. rewrite H. unfold bind at 1. rewrite E. unfold ret at 1.
      rewrite E3. f_equal. lia.
    + rewrite W3, K2. unfold backed_off. sproj. replace (2 * s_congestion_timeout (sk s) * 2 ^ Z.of_nat (length ks)) with (s_congestion_timeout (sk s) * (2 * 2 ^ Z.of_nat (length ks))) by ring. destruct (sk s); reflexivity.
    + rewrite X3. exact X2.
    + rewrite L3, L2. change (w_sent (wd s1)) with (w_sent (wd s)). now rewrite app_assoc.
Qed.
Lemma reader_waits ks s d src rest : all_timeouts ks -> w_in (wd s) = map RxErr ks ++ RxDgram d src :: rest -> s_send_window (sk s) = [] -> s_state (sk s) = Connected -> all_sent s ->
  0 <= s_congestion_timeout (sk s) -> s_congestion_timeout (sk s) * 2 ^ Z.of_nat (length ks) < 2 ^ 64 -> Z.of_nat (length ks) < s_max_retries (sk s) ->
  exists xs s' c, wait_datagram s = (Ret (firstn 1520 d, src), s') /\ sk s' = ss_cwnd c (ss_congestion_timeout (s_congestion_timeout (sk s) * 2 ^ Z.of_nat (length ks)) (sk s)) /\
    w_in (wd s') = rest /\ w_send (wd s') = w_send (wd s) /\ w_sent (wd s') = w_sent (wd s) ++ xs.
Proof.
  intros HK HI HW HS HA H0 HT HM. destruct (wait_idles ks s 0 (RxDgram d src :: rest) (S (S (length rest))) HK HI HW HS HA H0 HT ltac:(lia)) as (xs & s1 & c & E & K & I & X & L).
  exists xs, (rx_state s1), c. split; [|unfold rx_state; sproj; rewrite I; auto]. assert (HM' : s_max_retries (sk s1) = s_max_retries (sk s)) by (rewrite K; reflexivity).
  rewrite wait_datagram_eq, HI, app_length, map_length. cbn [length]. replace (S (length ks + S (length rest))) with (length ks + S (S (length rest)))%nat by lia.
  rewrite E. cbn [loop]; unfold bind at 1, wait_body at 1, bind at 1, get_sk at 1; (replace (s_max_retries (sk s1) <=? 0 + Z.of_nat (length ks)) with false by lia); unfold bind, udp_recv; rewrite I. unfold ret, rx_state. rewrite I. reflexivity.
Qed.

(** ** What the reader does with a packet *)
(** Nothing in flight, queued or buffered at a connected reader. *)
Definition idle (k : socket) : Prop := s_state k = Connected /\ s_pending_data k = [] /\ s_incoming_buffer k = [] /\ s_send_window k = [] /\ s_unsent_queue k = [] /\ 0 < s_max_retries k.
Definition heard (p : packet) (k k' : socket) : Prop := exists dl, k' = ss_last_dropped (seq_nr p) (ss_ack_nr (seq_nr p) (ss_their_delay dl (ss_remote_wnd_size (wnd_size p) k))).
Lemma copy_one rec n p src s : packet_try_from p = Some (Ok p) -> get_type p = Some PData -> own_id (sk s) p -> idle (sk s) -> all_sent s ->
  s_ack_nr (sk s) = seq_nr p -> s_last_dropped (sk s) = seq_nr p ->
  exists s' r, process_datagram rec n p src s = (Ret ([], src), s') /\ state_reply r (s_sender_connection_id (sk s)) (s_seq_nr (sk s)) (seq_nr p) /\
    w_sent (wd s') = w_sent (wd s) ++ [(src, r)] /\ w_in (wd s') = w_in (wd s) /\ w_send (wd s') = w_send (wd s) /\ heard p (sk s) (sk s').
Proof.
  intros HV HT HO (ES & EP & EB & EW & EU & HM) HX HA HD.
  rewrite (process_packet _ _ _ _ p PData _ HV HT). unfold bind at 1. rewrite (handle_own _ p src PData s HT (or_introl HO)). pose proof (seq_nr_range p) as HQ.
  assert (EK : sk (noted p s) = ss_their_delay (abs_diff (clock_now s) (timestamp p)) (ss_remote_wnd_size (wnd_size p) (sk s))).
  { unfold noted. cbn [sk]. do 2 f_equal. unfold acked_sk. rewrite HA, Z.sub_diag. reflexivity. }
  remember (noted p s) as t eqn:Et. assert (Ewd : wd t = wd (ticked s)) by (rewrite Et; reflexivity). clear Et.
  assert (K1 : s_ack_nr (sk t) = seq_nr p) by (rewrite EK; exact HA). assert (K2 : s_state (sk t) = Connected) by (rewrite EK; exact ES).
  assert (K3 : s_incoming_buffer (sk t) = []) by (rewrite EK; exact EB). assert (K4 : s_pending_data (sk t) = []) by (rewrite EK; exact EP).
  unfold dispatch, bind at 1, get_sk at 1. rewrite K2. rewrite data_reply_full by (right; right; exact K3).
  assert (EBm : reply_bitmap p (sk t) = []) by (unfold reply_bitmap; rewrite K1, Z.sub_diag; reflexivity). rewrite EBm, K2, K1. cbn [sstate_eqb].
  unfold answer, bind at 1, bind at 1. rewrite set_wnd_wire. cbn [h_type h_cid h_ts h_tsd h_wnd h_seq h_ack].
  match goal with |- context [udp_send src ?q ?t] => set (r := q); set (t1 := t) end.
  assert (EX : tx_ok t1 = true) by (apply all_sent_ok; unfold all_sent, t1; cbn [ticked wd]; sproj; rewrite Ewd; exact HX).
  rewrite (send_ok_eq src r t1 EX). cbn [try_ ret]. unfold bind at 1, get_sk at 1. change (sk (tx_state src r t1)) with (sk t).
  assert (K5 : s_last_dropped (sk t) = seq_nr p) by (rewrite EK; exact HD). rewrite K5, Z.sub_diag. change (ptype_eqb PData PData && (0 <? u16 0)) with false. cbv iota.
  unfold bind at 1, ret at 1. unfold bind at 1. rewrite (flush_empty n (tx_state src r t1) K4 K3).
  eexists. exists r. split; [reflexivity|]. split.
  { exists (clock_now t), (u32 (abs_diff (clock_now t) (timestamp p))). unfold r. rewrite EK. reflexivity. }
  unfold tx_state. rewrite EX. cbn [wd sk]. sproj. change (wd t1) with (sw_tick (S (w_tick (wd t))) (wd t)). sproj. rewrite Ewd. unfold ticked. sproj.
  repeat (split; [reflexivity|]). exists (abs_diff (clock_now s) (timestamp p)). change (sk t1) with (sk t). rewrite EK. destruct (sk s); cbn in *. subst. reflexivity.
Qed.
Lemma data_one rec n p d src s : packet_try_from p = Some (Ok p) -> get_type p = Some PData -> own_id (sk s) p -> idle (sk s) -> all_sent s -> payload p = Some d -> d <> [] -> (length d <= n)%nat ->
  (s_ack_nr (sk s) = (seq_nr p - 1) mod 65536 \/ s_ack_nr (sk s) = seq_nr p) -> s_last_dropped (sk s) <> seq_nr p -> 0 <= s_last_dropped (sk s) < 65536 ->
  exists s' r, process_datagram rec n p src s = (Ret (d, src), s') /\ state_reply r (s_sender_connection_id (sk s)) (s_seq_nr (sk s)) (seq_nr p) /\
    w_sent (wd s') = w_sent (wd s) ++ [(src, r)] /\ w_in (wd s') = w_in (wd s) /\ w_send (wd s') = w_send (wd s) /\ heard p (sk s) (sk s').
Proof.
  intros HV HT HO (ES & EP & EB & EW & EU & HM) HX HPl Hd Hn HA HL HR.
  rewrite (process_packet _ _ _ _ p PData _ HV HT). unfold bind at 1. rewrite (handle_own _ p src PData s HT (or_introl HO)). pose proof (seq_nr_range p) as HQ.
  assert (EK : sk (noted p s) = ss_their_delay (abs_diff (clock_now s) (timestamp p)) (ss_remote_wnd_size (wnd_size p) (ss_ack_nr (seq_nr p) (sk s)))).
  { unfold noted. cbn [sk]. do 2 f_equal. unfold acked_sk. rewrite u16_eq. destruct HA as [HA|HA]; rewrite HA.
    - replace (_ =? 1) with true by lia. reflexivity.
    - replace (_ =? 1) with false by lia. rewrite <- HA. destruct (sk s); reflexivity. }
  remember (noted p s) as t eqn:Et. assert (Ewd : wd t = wd (ticked s)) by (rewrite Et; reflexivity). clear Et.
  assert (K1 : s_ack_nr (sk t) = seq_nr p) by (rewrite EK; reflexivity). assert (K2 : s_state (sk t) = Connected) by (rewrite EK; exact ES).
  assert (K3 : s_incoming_buffer (sk t) = []) by (rewrite EK; exact EB). assert (K4 : s_pending_data (sk t) = []) by (rewrite EK; exact EP).
  unfold dispatch, bind at 1, get_sk at 1. rewrite K2. rewrite data_reply_full by (right; right; exact K3).
  assert (EBm : reply_bitmap p (sk t) = []) by (unfold reply_bitmap; rewrite K1, Z.sub_diag; reflexivity). rewrite EBm, K2, K1. cbn [sstate_eqb].
  unfold answer, bind at 1, bind at 1. rewrite set_wnd_wire. cbn [h_type h_cid h_ts h_tsd h_wnd h_seq h_ack].
  match goal with |- context [udp_send src ?q ?t] => set (r := q); set (t1 := t) end.
  assert (EX : tx_ok t1 = true) by (apply all_sent_ok; unfold all_sent, t1; cbn [ticked wd]; sproj; rewrite Ewd; exact HX).
  rewrite (send_ok_eq src r t1 EX). cbn [try_ ret]. unfold bind at 1, get_sk at 1. change (sk (tx_state src r t1)) with (sk t).
  assert (K5 : s_last_dropped (sk t) = s_last_dropped (sk s)) by (rewrite EK; reflexivity). rewrite K5.
  replace (ptype_eqb PData PData && (0 <? u16 (seq_nr p - s_last_dropped (sk s)))) with true by (rewrite u16_eq; cbn [ptype_eqb andb]; lia).
  unfold insert_into_buffer, bind at 1, upd_sk at 1. change (sk (tx_state src r t1)) with (sk t). rewrite K3. change (insert_packet p []) with [p]. unfold bind at 1.
  rewrite (flush_ready n _ p [] d) by (sproj; auto). rewrite firstn_all2, Nat.eqb_refl by lia. cbn [ret].
  eexists. exists r. split; [reflexivity|]. split.
  { exists (clock_now t), (u32 (abs_diff (clock_now t) (timestamp p))). unfold r. rewrite EK. reflexivity. }
  cbn [wd sk]. unfold tx_state. rewrite EX. cbn [wd]. sproj. change (wd t1) with (sw_tick (S (w_tick (wd t))) (wd t)). sproj. rewrite Ewd. unfold ticked. sproj.
  repeat (split; [reflexivity|]). exists (abs_diff (clock_now s) (timestamp p)). unfold advance_socket. sproj. rewrite EK. destruct (sk s); cbn in *. subst. reflexivity.
Qed.

(** ** Reads over copies *)
(** What copies and timeouts leave alone at the reader. *)
Definition held (k k' : socket) : Prop :=
  (s_state k' = s_state k /\ s_pending_data k' = s_pending_data k /\ s_incoming_buffer k' = s_incoming_buffer k /\ s_send_window k' = s_send_window k /\ s_unsent_queue k' = s_unsent_queue k /\ s_max_retries k' = s_max_retries k) /\
  s_connected_to k' = s_connected_to k /\ s_sender_connection_id k' = s_sender_connection_id k /\ s_receiver_connection_id k' = s_receiver_connection_id k /\ s_seq_nr k' = s_seq_nr k /\ s_last_acked k' = s_last_acked k.
Lemma held_trans a b c : held a b -> held b c -> held a c. Proof. unfold held. intuition congruence. Qed.
Lemma held_refl a : held a a. Proof. unfold held. auto 15. Qed.
Lemma held_idle k k' : held k k' -> idle k -> idle k'.
Proof. unfold idle. intros ((-> & -> & -> & -> & -> & ->) & _) H. exact H. Qed.
Lemma heard_held p k k' : heard p k k' -> held k k' /\ s_ack_nr k' = seq_nr p /\ s_last_dropped k' = seq_nr p /\ s_congestion_timeout k' = s_congestion_timeout k.
Proof. intros (dl & ->). unfold held. sproj. auto 20. Qed.
Definition rbody (n : nat) (_ : unit) : M (unit + list byte * addr) :=
  s <- get_sk ;; if sstate_eqb (s_state s) Closed then ret (inr ([], s_connected_to s)) else x <- recv n ;; if is_nil (fst x) then ret (inl tt) else ret (inr x).
Lemma recv_from_idle n s : idle (sk s) -> recv_from n s = loop (S (length (w_in (wd s)))) (rbody n) tt s.
Proof.
  intros (ES & EP & EB & _). unfold recv_from, bind at 1. rewrite (flush_empty n s EP EB). unfold bind at 1, get_sk at 1. cbn [is_nil negb]. rewrite ES. cbn [sstate_eqb].
  unfold bind at 1, event_fuel. reflexivity.
Qed.
Lemma rbody_recv n s : s_state (sk s) = Connected -> rbody n tt s = match recv n s with (Ret x, s1) => (Ret (if is_nil (fst x) then inl tt else inr x), s1) | (Fail e, s1) => (Fail e, s1) end.
Proof. intros ES. unfold rbody, bind at 1, get_sk at 1. rewrite ES. cbn [sstate_eqb]. unfold bind. destruct (recv n s) as [[x|e] s1]; [|reflexivity]. destruct (is_nil (fst x)); reflexivity. Qed.
(** A packet of the speaker: from whatever moment of its life. *)
Definition copy_of (k : socket) (p : packet) : Prop := exists c, (0 < length c <= 1380)%nat /\ chunkp (s_receiver_connection_id k) (s_last_dropped k) c p.
Definition awaited (r : Z) (g : list kind * packet) : Prop := all_timeouts (fst g) /\ Z.of_nat (length (fst g)) < r.
Lemma chunkp_stamp cid sq c t p : chunkp cid sq c p -> chunkp cid sq c (set_timestamp t p).
Proof. intros (ts & tsd & ak & ->). rewrite set_ts_wire. do 3 eexists. reflexivity. Qed.
Lemma group_waits n ks p src rest s : all_timeouts ks -> w_in (wd s) = map RxErr ks ++ RxDgram p src :: rest -> idle (sk s) -> all_sent s -> (length p <= 1520)%nat ->
  0 <= s_congestion_timeout (sk s) -> s_congestion_timeout (sk s) * 2 ^ Z.of_nat (length ks) < 2 ^ 64 -> Z.of_nat (length ks) < s_max_retries (sk s) ->
  exists rec xs s1, recv n s = process_datagram rec n p src s1 /\ held (sk s) (sk s1) /\ s_ack_nr (sk s1) = s_ack_nr (sk s) /\ s_last_dropped (sk s1) = s_last_dropped (sk s) /\
    s_congestion_timeout (sk s1) = s_congestion_timeout (sk s) * 2 ^ Z.of_nat (length ks) /\ w_in (wd s1) = rest /\ w_send (wd s1) = w_send (wd s) /\ w_sent (wd s1) = w_sent (wd s) ++ xs.
Proof.
  intros HK HI HD HX HL H0 HT HM. destruct (reader_waits ks s p src rest HK HI ltac:(apply HD) ltac:(apply HD) HX H0 HT HM) as (xs & s1 & c & E & K & I & X & L).
  rewrite firstn_all2 in E by exact HL. exists (recv_fuel (length (w_in (wd s)))), xs, s1. split; [apply recv_waited; exact E|]. rewrite K. split; [unfold held; sproj; auto 15|]. sproj. auto 10.
Qed.
Definition bounded (k : socket) : Prop := 0 <= s_last_dropped k < 65536 /\ 0 <= s_receiver_connection_id k < 65536 /\ 0 <= s_congestion_timeout k.
Lemma copy_step n ax g rest s : w_in (wd s) = map RxErr (fst g) ++ RxDgram (snd g) ax :: rest -> awaited (s_max_retries (sk s)) g -> copy_of (sk s) (snd g) -> idle (sk s) -> all_sent s -> bounded (sk s) ->
  s_ack_nr (sk s) = s_last_dropped (sk s) -> s_congestion_timeout (sk s) * 2 ^ Z.of_nat (length (fst g)) < 2 ^ 64 ->
  exists s1 xs q, rbody n tt s = (Ret (inl tt), s1) /\ held (sk s) (sk s1) /\ s_ack_nr (sk s1) = s_last_dropped (sk s) /\ s_last_dropped (sk s1) = s_last_dropped (sk s) /\
    s_congestion_timeout (sk s1) = s_congestion_timeout (sk s) * 2 ^ Z.of_nat (length (fst g)) /\ w_in (wd s1) = rest /\ w_send (wd s1) = w_send (wd s) /\
    w_sent (wd s1) = w_sent (wd s) ++ xs ++ [(ax, q)] /\ state_reply q (s_sender_connection_id (sk s)) (s_seq_nr (sk s)) (s_last_dropped (sk s)).
Proof.
  intros HI (HK & HM) (c & Hc & HP) HD HX (B1 & B2 & B3) HA HT. destruct (chunkp_facts _ _ _ _ HP B1 B2 Hc) as (F1 & F2 & F3 & F4 & F5 & F6). rewrite firstn_all2 in F2 by lia.
  destruct (group_waits n (fst g) (snd g) ax rest s HK HI HD HX ltac:(lia) B3 HT HM) as (rec & xs & s1 & E & K & A1 & D1 & T1 & I1 & X1 & L1).
  assert (HX1 : all_sent s1) by (intros i; rewrite X1; apply HX).
  assert (HO : own_id (sk s1) (snd g)) by (right; destruct K as (_ & _ & _ & K & _); rewrite K; exact F5).
  destruct (copy_one rec n (snd g) ax s1 F2 F3 HO (held_idle _ _ K HD) HX1 ltac:(congruence) ltac:(congruence)) as (s2 & q & E2 & R2 & L2 & I2 & X2 & H2).
  apply heard_held in H2 as (K2 & A2 & D2 & T2).
  exists s2, xs, q. split; [rewrite rbody_recv by apply HD; rewrite E, E2; reflexivity|]. split; [eapply held_trans; eassumption|].
  split; [congruence|]. split; [congruence|]. split; [congruence|]. split; [congruence|]. split; [congruence|]. split; [rewrite L2, L1, <- app_assoc; reflexivity|].
  destruct K as (_ & _ & K3 & _ & K4 & _). rewrite <- K3, <- K4, <- F4. exact R2.
Qed.
Lemma new_step n ax g d s : w_in (wd s) = map RxErr (fst g) ++ [RxDgram (snd g) ax] -> awaited (s_max_retries (sk s)) g -> idle (sk s) -> all_sent s -> bounded (sk s) ->
  forall sq, 0 <= sq < 65536 -> chunkp (s_receiver_connection_id (sk s)) sq d (snd g) -> (0 < length d <= 1380)%nat -> (length d <= n)%nat ->
  (s_ack_nr (sk s) = (sq - 1) mod 65536 \/ s_ack_nr (sk s) = sq) -> s_last_dropped (sk s) <> sq -> s_congestion_timeout (sk s) * 2 ^ Z.of_nat (length (fst g)) < 2 ^ 64 ->
  exists s1 xs q, rbody n tt s = (Ret (inr (d, ax)), s1) /\ held (sk s) (sk s1) /\ s_ack_nr (sk s1) = sq /\ s_last_dropped (sk s1) = sq /\
    s_congestion_timeout (sk s1) = s_congestion_timeout (sk s) * 2 ^ Z.of_nat (length (fst g)) /\ w_in (wd s1) = [] /\ w_send (wd s1) = w_send (wd s) /\
    w_sent (wd s1) = w_sent (wd s) ++ xs ++ [(ax, q)] /\ state_reply q (s_sender_connection_id (sk s)) (s_seq_nr (sk s)) sq.
Proof.
  intros HI (HK & HM) HD HX (B1 & B2 & B3) sq HS HP Hc Hn HA HL HT. destruct (chunkp_facts _ _ _ _ HP HS B2 Hc) as (F1 & F2 & F3 & F4 & F5 & F6). rewrite firstn_all2 in F2 by lia.
  destruct (group_waits n (fst g) (snd g) ax [] s HK HI HD HX ltac:(lia) B3 HT HM) as (rec & xs & s1 & E & K & A1 & D1 & T1 & I1 & X1 & L1).
  assert (HX1 : all_sent s1) by (intros i; rewrite X1; apply HX).
  assert (HO : own_id (sk s1) (snd g)) by (right; destruct K as (_ & _ & _ & K & _); rewrite K; exact F5).
  assert (Hd : d <> []) by (destruct d; [cbn in Hc; lia|discriminate]).
  destruct (data_one rec n (snd g) d ax s1 F2 F3 HO (held_idle _ _ K HD) HX1 F6 Hd Hn ltac:(rewrite A1, F4; exact HA) ltac:(rewrite D1, F4; exact HL) ltac:(rewrite D1; exact B1)) as (s2 & q & E2 & R2 & L2 & I2 & X2 & H2).
  apply heard_held in H2 as (K2 & A2 & D2 & T2).
  exists s2, xs, q. split; [rewrite rbody_recv by apply HD; rewrite E, E2; destruct d; [congruence|reflexivity]|]. split; [eapply held_trans; eassumption|].
  split; [congruence|]. split; [congruence|]. split; [congruence|]. split; [congruence|]. split; [congruence|]. split; [rewrite L2, L1, <- app_assoc; reflexivity|].
  destruct K as (_ & _ & K3 & _ & K4 & _). rewrite <- K3, <- K4, <- F4. exact R2.
Qed.
Definition expired (l : list (list kind * packet)) : nat := expiries (map fst l).
Lemma expired_cons g l : expired (g :: l) = (length (fst g) + expired l)%nat. Proof. reflexivity. Qed.
Lemma shrink a b c m : 0 <= a -> 0 < b -> 0 < c -> a * (b * c) < m -> a * b < m /\ a * c < m /\ a * b * c < m /\ 0 <= a * b.
Proof. intros Ha Hb Hc H. assert (0 <= a * b) by (apply Z.mul_nonneg_nonneg; lia). assert (0 <= a * c) by (apply Z.mul_nonneg_nonneg; lia). replace (a * (b * c)) with (a * b * c) in H by ring.
  repeat split; try lia; [|replace (a * b * c) with (a * c * b) in H by ring]; (eapply Z.le_lt_trans; [|exact H]).
  - rewrite <- (Z.mul_1_r (a * b)) at 1. apply Z.mul_le_mono_nonneg_l; lia.
  - rewrite <- (Z.mul_1_r (a * c)) at 1. apply Z.mul_le_mono_nonneg_l; lia.
Qed.
Lemma copies_loop n ax l : forall s rest f, w_in (wd s) = arrivals ax l ++ rest -> Forall (awaited (s_max_retries (sk s))) l -> Forall (fun g => copy_of (sk s) (snd g)) l -> idle (sk s) -> all_sent s -> bounded (sk s) ->
  (l <> [] -> s_ack_nr (sk s) = s_last_dropped (sk s)) -> s_congestion_timeout (sk s) * 2 ^ Z.of_nat (expired l) < 2 ^ 64 ->
  exists s1 xs, loop (length l + f) (rbody n) tt s = loop f (rbody n) tt s1 /\ held (sk s) (sk s1) /\ s_ack_nr (sk s1) = s_ack_nr (sk s) /\ s_last_dropped (sk s1) = s_last_dropped (sk s) /\
    s_congestion_timeout (sk s1) = s_congestion_timeout (sk s) * 2 ^ Z.of_nat (expired l) /\ w_in (wd s1) = rest /\ w_send (wd s1) = w_send (wd s) /\ w_sent (wd s1) = w_sent (wd s) ++ xs /\
    (if l then xs = [] else exists ys q, xs = ys ++ [(ax, q)] /\ state_reply q (s_sender_connection_id (sk s)) (s_seq_nr (sk s)) (s_last_dropped (sk s))).
Proof.
  induction l as [|g l IH]; intros s rest f HI HW HC HD HX HB HA HT.
  - exists s, []. cbn [length Nat.add]. split; [reflexivity|]. split; [apply held_refl|]. split; [reflexivity|]. split; [reflexivity|]. split; [cbn; lia|]. split; [exact HI|]. rewrite app_nil_r. repeat (split; [reflexivity|]). reflexivity.
  - inversion HW as [|? ? W1 W2]; subst. inversion HC as [|? ? C1 C2]; subst. cbn [arrivals flat_map] in HI. fold (arrivals ax l) in HI. rewrite <- !app_assoc in HI. cbn [app] in HI.
    rewrite expired_cons, Nat2Z.inj_add, Z.pow_add_r in HT by lia. assert (0 < 2 ^ Z.of_nat (expired l)) by (apply Z.pow_pos_nonneg; lia). assert (0 < 2 ^ Z.of_nat (length (fst g))) by (apply Z.pow_pos_nonneg; lia).
    destruct HB as (B1 & B2 & B3). destruct (shrink _ _ _ _ B3 H0 H HT) as (HT1 & HT2 & HT3 & HT4).
    destruct (copy_step n ax g (arrivals ax l ++ rest) s HI W1 C1 HD HX ltac:(unfold bounded; auto) (HA ltac:(discriminate)) HT1) as (s1 & xs & q & E & K & A1 & D1 & T1 & I1 & X1 & L1 & R1).
    pose proof K as ((_ & _ & _ & _ & _ & M1) & _ & S1 & R & Q1 & _).
    destruct (IH s1 rest f I1) as (s2 & ys & E2 & K2 & A2 & D2 & T2 & I2 & X2 & L2 & R2).
    + rewrite M1. exact W2.
    + eapply Forall_impl; [|exact C2]. intros h (c & Hc & Hp). exists c. rewrite R, D1. auto.
    + eapply held_idle; eassumption.
    + intros i. rewrite X1. apply HX.
    + unfold bounded. rewrite D1, R, T1. split; [exact B1|]. split; [exact B2|exact HT4].
    + congruence.
    + rewrite T1. exact HT3.
    + exists s2, (xs ++ [(ax, q)] ++ ys). split; [cbn [length Nat.add]; erewrite loop_step by exact E; exact E2|]. split; [eapply held_trans; eassumption|].
      split; [rewrite (HA ltac:(discriminate)); congruence|]. split; [congruence|]. split; [rewrite T2, T1, expired_cons, Nat2Z.inj_add, Z.pow_add_r by lia; rewrite Z.mul_assoc; reflexivity|]. split; [exact I2|]. split; [congruence|].
      split; [rewrite L2, L1, <- !app_assoc; reflexivity|]. destruct l as [|g2 l].
      * exists xs, q. rewrite R2. split; [reflexivity|exact R1].
      * destruct R2 as (zs & r & -> & R2). exists (xs ++ [(ax, q)] ++ zs), r. split; [rewrite <- !app_assoc; reflexivity|]. rewrite S1, Q1, D1 in R2. exact R2.
Qed.
Lemma arrivals_length ax l : (length l <= length (arrivals ax l))%nat.
Proof. induction l as [|g l IH]; [apply Nat.le_refl|]. cbn [arrivals flat_map length]. fold (arrivals ax l). rewrite !app_length. cbn [length]. lia. Qed.
Lemma arrivals_app ax l l' : arrivals ax (l ++ l') = arrivals ax l ++ arrivals ax l'.
Proof. unfold arrivals. apply flat_map_app. Qed.
(** A read that first answers the copies [l] of what was delivered last and then gets the next packet. *)
Lemma read_new n ax l g d s : w_in (wd s) = arrivals ax (l ++ [g]) -> Forall (awaited (s_max_retries (sk s))) (l ++ [g]) -> Forall (fun g => copy_of (sk s) (snd g)) l -> idle (sk s) -> all_sent s -> bounded (sk s) ->
  (l <> [] -> s_ack_nr (sk s) = s_last_dropped (sk s)) -> s_congestion_timeout (sk s) * 2 ^ Z.of_nat (expired (l ++ [g])) < 2 ^ 64 ->
  forall sq, 0 <= sq < 65536 -> chunkp (s_receiver_connection_id (sk s)) sq d (snd g) -> (0 < length d <= 1380)%nat -> (length d <= n)%nat ->
  (s_ack_nr (sk s) = (sq - 1) mod 65536 \/ s_ack_nr (sk s) = sq) -> s_last_dropped (sk s) <> sq ->
  exists s1 xs q, recv_from n s = (Ret (d, ax), s1) /\ held (sk s) (sk s1) /\ s_ack_nr (sk s1) = sq /\ s_last_dropped (sk s1) = sq /\
    s_congestion_timeout (sk s1) = s_congestion_timeout (sk s) * 2 ^ Z.of_nat (expired (l ++ [g])) /\ w_in (wd s1) = [] /\ w_send (wd s1) = w_send (wd s) /\
    w_sent (wd s1) = w_sent (wd s) ++ xs ++ [(ax, q)] /\ state_reply q (s_sender_connection_id (sk s)) (s_seq_nr (sk s)) sq.
Proof.
  intros HI HW HC HD HX HB HA HT sq HS HP Hd Hn HK HL. apply Forall_app in HW as (W1 & W2). inversion W2 as [|? ? W3 _]; subst.
  assert (EE : expired (l ++ [g]) = (expired l + length (fst g))%nat) by (unfold expired, expiries; rewrite !map_app, list_sum_app; cbn; lia). rewrite EE in *.
  rewrite Nat2Z.inj_add, Z.pow_add_r in * by lia. assert (0 < 2 ^ Z.of_nat (expired l)) by (apply Z.pow_pos_nonneg; lia). assert (0 < 2 ^ Z.of_nat (length (fst g))) by (apply Z.pow_pos_nonneg; lia).
  rewrite recv_from_idle by exact HD. pose proof HB as (B1 & B2 & B3). destruct (shrink _ _ _ _ B3 H H0 HT) as (HT1 & HT2 & HT3 & HT4).
  pose proof (arrivals_length ax (l ++ [g])) as HN. rewrite <- HI in HN. rewrite app_length in HN. cbn [length] in HN. rewrite arrivals_app in HI.
  replace (S (length (w_in (wd s)))) with (length l + S (length (w_in (wd s)) - length l))%nat by lia.
  destruct (copies_loop n ax l s _ (S (length (w_in (wd s)) - length l)) HI W1 HC HD HX HB HA HT1) as (s1 & xs & E & K & A1 & D1 & T1 & I1 & X1 & L1 & _). rewrite E.
  pose proof K as ((_ & _ & _ & _ & _ & M1) & _ & S1 & R & Q1 & _). cbn [arrivals flat_map] in I1. rewrite app_nil_r in I1.
  destruct (new_step n ax g d s1 I1) with (sq := sq) as (s2 & ys & q & E2 & K2 & A2 & D2 & T2 & I2 & X2 & L2 & R2); auto.
  { rewrite M1. exact W3. } { eapply held_idle; eassumption. } { intros i. rewrite X1. apply HX. } { unfold bounded. rewrite D1, R, T1. split; [exact B1|]. split; [exact B2|exact HT4]. }
  { rewrite R. exact HP. } { rewrite A1. exact HK. } { rewrite D1. exact HL. } { rewrite T1. exact HT3. }
  exists s2, (xs ++ ys), q. split; [cbn [loop]; unfold bind at 1; rewrite E2; reflexivity|]. split; [eapply held_trans; eassumption|]. split; [exact A2|]. split; [exact D2|]. split; [rewrite T2, T1, Z.mul_assoc; reflexivity|]. split; [exact I2|]. split; [congruence|].
  split; [rewrite L2, L1, <- !app_assoc; reflexivity|]. rewrite S1, Q1 in R2. exact R2.
Qed.
(** A read that has only copies to answer goes on waiting. *)
Lemma read_copies n ax l s : w_in (wd s) = arrivals ax l -> Forall (awaited (s_max_retries (sk s))) l -> Forall (fun g => copy_of (sk s) (snd g)) l -> idle (sk s) -> all_sent s -> bounded (sk s) -> l <> [] ->
  s_ack_nr (sk s) = s_last_dropped (sk s) -> s_congestion_timeout (sk s) * 2 ^ Z.of_nat (expired l) < 2 ^ 64 ->
  exists s1 xs q, recv_from n s = (Fail Pend, s1) /\ w_sent (wd s1) = w_sent (wd s) ++ xs ++ [(ax, q)] /\ state_reply q (s_sender_connection_id (sk s)) (s_seq_nr (sk s)) (s_last_dropped (sk s)).
Proof.
  intros HI HW HC HD HX HB HN HA HT. rewrite recv_from_idle by exact HD. pose proof (arrivals_length ax l) as HL. rewrite <- HI in HL. rewrite <- (app_nil_r (arrivals ax l)) in HI.
  replace (S (length (w_in (wd s)))) with (length l + S (length (w_in (wd s)) - length l))%nat by lia.
  destruct (copies_loop n ax l s [] (S (length (w_in (wd s)) - length l)) HI HW HC HD HX HB (fun _ => HA) HT) as (s1 & xs & E & K & A1 & D1 & T1 & I1 & X1 & L1 & R1). rewrite E.
  destruct l as [|g l]; [congruence|]. destruct R1 as (ys & q & -> & R1). exists s1, ys, q. split; [|split; [exact L1|exact R1]].
  cbn [loop]. unfold bind at 1. pose proof (held_idle _ _ K HD) as HD1. rewrite rbody_recv by apply HD1. rewrite (recv_blocks n s1 I1) by apply HD1. reflexivity.
Qed.

(** ** The speaker's flush *)
Lemma flush_pends cid sq d ks p s : all_timeouts ks -> w_in (wd s) = map RxErr ks -> s_send_window (sk s) = [p] -> chunkp cid sq d p -> all_sent s ->
  0 <= s_congestion_timeout (sk s) -> s_congestion_timeout (sk s) * 2 ^ Z.of_nat (length ks) < 2 ^ 64 -> Z.of_nat (length ks) < s_max_retries (sk s) ->
  exists ps s', flush s = (Fail Pend, s') /\ length ps = length ks /\ Forall (chunkp cid sq d) ps /\ w_sent (wd s') = w_sent (wd s) ++ map (pair (s_connected_to (sk s))) ps.
Proof.
  intros HK HI HW HP HX H0 HT HM. rewrite <- (app_nil_r (map RxErr ks)) in HI.
  destruct (speaker_waits (chunkp cid sq d) ltac:(intros; now apply chunkp_stamp) ks p [] s [] HK HI HW HP HX H0 HT HM) as (ps & q & s' & N & F & _ & _ & _ & _ & _ & L & E).
  exists ps, s'. split; [|auto]. rewrite flush_eq. cbn [loop]. unfold bind at 1, flush_body at 1, bind at 1, get_sk at 1. rewrite HW. cbn [is_nil]. unfold bind at 1. rewrite (recv_pends _ _ _ E). reflexivity.
Qed.
Lemma flush_acked cid sq d ks p r src s : all_timeouts ks -> w_in (wd s) = map RxErr ks ++ [RxDgram r src] -> s_send_window (sk s) = [p] -> chunkp cid sq d p -> (0 < length d <= 1380)%nat -> 0 <= sq < 65536 -> 0 <= cid < 65536 -> all_sent s ->
  0 <= s_congestion_timeout (sk s) -> s_congestion_timeout (sk s) * 2 ^ Z.of_nat (length ks) < 2 ^ 64 -> Z.of_nat (length ks) < s_max_retries (sk s) ->
  s_state (sk s) = Connected -> s_pending_data (sk s) = [] -> s_incoming_buffer (sk s) = [] -> ok s -> s_curr_window (sk s) = packet_len p -> s_last_acked (sk s) <> sq ->
  (exists rs, state_reply r (s_receiver_connection_id (sk s)) rs sq) -> 0 <= s_receiver_connection_id (sk s) < 65536 ->
  exists ps p' k s', flush s = (Ret tt, s') /\ length ps = length ks /\ waited [p'] (sk s) k /\ released r k (sk s') /\ 500 <= s_congestion_timeout (sk s') <= 60000 /\ w_in (wd s') = [] /\ w_send (wd s') = w_send (wd s) /\
    w_sent (wd s') = w_sent (wd s) ++ map (pair (s_connected_to (sk s))) ps.
Proof.
  intros HK HI HW HP Hd Hsq Hcid HX H0 HT HM ES EP EB HO EC HA (rs & ts & tsd & Er) Hrc.
  assert (Rlen : length r = 20%nat) by (rewrite Er, wire_length; reflexivity).
  assert (Rval : packet_try_from r = Some (Ok r)) by (rewrite Er; apply wire_valid; constructor).
  assert (Rty : get_type r = Some PState) by (rewrite Er, get_type_wire; reflexivity).
  assert (Rcid : connection_id r = s_receiver_connection_id (sk s)) by (rewrite Er, cid_wire; cbn [h_cid]; rewrite u16_small by lia; reflexivity).
  assert (Rack : ack_nr r = sq) by (rewrite Er, ack_wire; cbn [h_ack]; apply u16_small; lia).
  assert (Rext : extensions r = Some []) by (rewrite Er, extensions_wire by constructor; reflexivity). clear Er.
  destruct (speaker_waits (chunkp cid sq d) ltac:(intros; now apply chunkp_stamp) ks p [] s [RxDgram r src] HK HI HW HP HX H0 HT HM) as (ps & q & s1 & N & F & HQ & W1 & I1 & X1 & C1 & L1 & E1).
  destruct (chunkp_facts _ _ _ _ HP Hsq Hcid Hd) as (F1 & _ & _ & F4 & _ & _). destruct (chunkp_facts _ _ _ _ HQ Hsq Hcid Hd) as (G1 & _ & _ & G4 & _ & _).
  rewrite firstn_all2 in E1 by lia. pose proof W1 as (c & t & K1).
  assert (HL : packet_len q = packet_len p) by (unfold packet_len, zlen; lia).
  assert (HOk : ok s1).
  { rewrite C1, K1. destruct HO as (O1 & O2 & O3 & O4 & O5). split; [exact O1|]. split; [exact O2|]. sproj. split; [constructor; [unfold long; lia|constructor]|]. split; [exact O4|].
    intros Hc. specialize (O5 Hc). rewrite HW in O5. cbn [total fold_right] in *. rewrite HL. exact O5. }
  destruct (state_one (recv_fuel (length (w_in (wd s)))) r src q (rx_state s1) Rty) as (s2 & E2 & R2 & W2 & T2); try (unfold rx_state; cbn [sk]; rewrite K1; sproj; assumption || reflexivity).
  { unfold rx_state. cbn [sk]. rewrite K1. right. exact Rcid. } { exact Rext. } { exact HOk. } { unfold rx_state. cbn [sk]. rewrite K1. sproj. congruence. } { unfold packet_len, zlen. lia. } { congruence. } { unfold rx_state. cbn [sk]. rewrite K1. sproj. congruence. }
  exists ps, q, (sk s1), s2. split; [|split; [exact N|split; [exact W1|split; [exact R2|split; [exact T2|]]]]].
  2:{ rewrite W2. unfold ticked, rx_state. sproj. rewrite I1. auto. }
  assert (W' : s_pending_data (sk s2) = [] /\ s_incoming_buffer (sk s2) = [] /\ s_send_window (sk s2) = []).
  { destruct R2 as (k1 & dl & wn & ts1 & T & ->). sproj. destruct T as (? & ? & ? & ? & ? & ? & ? & ->). sproj. rewrite (acked_other s_pending_data), (acked_other s_incoming_buffer) by reflexivity. unfold rx_state. cbn [sk]. rewrite K1. sproj. auto. }
  destruct W' as (W3 & W4 & W5).
  assert (ER : recv BUF_SIZE s = (Ret ([], src), s2)).
  { rewrite (recv_waited _ _ _ _ _ E1). rewrite (process_packet _ _ _ _ r PState _ Rval Rty). unfold bind at 1. rewrite E2. unfold answer. unfold bind at 1, ret at 1. unfold bind at 1, get_sk at 1. cbn [ptype_eqb andb]. unfold bind at 1, ret at 1.
    unfold bind at 1. rewrite (flush_empty BUF_SIZE s2 W3 W4). reflexivity. }
  rewrite flush_eq. erewrite loop_step by (unfold flush_body, bind at 1, get_sk at 1; rewrite HW; cbn [is_nil]; unfold bind at 1; rewrite ER; reflexivity).
  rewrite HI, app_length. replace (length (map RxErr ks) + length [RxDgram r src])%nat with (S (length (map RxErr ks))) by (cbn [length]; lia). cbn [loop]. unfold bind at 1, flush_body, bind at 1, get_sk at 1. rewrite W5. reflexivity.
Qed.

(** ** One message *)
Lemma through_count {A} (f : A -> bool) l : length (filter (fun b => b) (map f l)) = length (filter f l).
Proof. induction l as [|x l IH]; [reflexivity|]. cbn [map filter]. destruct (f x); cbn [length]; rewrite ?IH; reflexivity. Qed.
Lemma through_len bs p ps : length ps = length bs -> length (through (bs ++ [true]) (p :: ps)) = S (length (filter (fun b => b) bs)).
Proof.
  intros H. unfold through. revert p ps H. induction bs as [|b bs IH]; intros p [|p1 ps] H; cbn in H; try lia; [reflexivity|]. cbn [app combine filter fst]. specialize (IH p1 ps ltac:(lia)). cbn [combine] in IH.
  destruct b; cbn [map length]; rewrite IH; reflexivity.
Qed.
Lemma through_all (P : packet -> Prop) bs ps : Forall P ps -> Forall P (through bs ps).
Proof.
  intros H. unfold through. apply Forall_forall. intros q Hq. apply in_map_iff in Hq as ((b & q') & E & Hq). cbn in E. subst q'. apply filter_In in Hq as (Hq & _). apply in_combine_r in Hq.
  rewrite Forall_forall in H. auto.
Qed.
Lemma combine_fst {A B} (l : list A) : forall (l' : list B), length l = length l' -> map fst (combine l l') = l.
Proof. induction l as [|x l IH]; intros [|y l'] H; cbn in H; try lia; [reflexivity|]. cbn [combine map fst]. rewrite IH by lia. reflexivity. Qed.
Lemma combine_snd {A B} (l : list A) : forall (l' : list B), length l = length l' -> map snd (combine l l') = l'.
Proof. induction l as [|x l IH]; intros [|y l'] H; cbn in H; try lia; [reflexivity|]. cbn [combine map snd]. rewrite IH by lia. reflexivity. Qed.
Lemma script_nil s : script [] s = s.
Proof. unfold script. rewrite app_nil_r. destruct s as [k w]. destruct w. reflexivity. Qed.
Lemma script_reachable l s : reachable s -> reachable (script l s). Proof. intros H. now apply rc_input. Qed.

(** [x] is at ease and [y] reads; the copies [l] of the last packet are still before [y], and [y]'s timer may expire [t] times more. *)
Record engaged (ax ay : addr) (l : list (list kind * packet)) (t : nat) (x y : st) : Prop := mkEngaged {
  e_x : at_ease x; e_ax : s_connected_to (sk x) = ay; e_tx : s_congestion_timeout (sk x) <= 60000;
  e_y : reachable y; e_idle : idle (sk y); e_sends : all_sent y; e_in : w_in (wd y) = arrivals ax l; e_waits : Forall (awaited (s_max_retries (sk y))) l;
  e_copies : Forall (fun g => copy_of (sk y) (snd g)) l; e_ack : l <> [] -> s_ack_nr (sk y) = s_last_dropped (sk y);
  e_ty : s_congestion_timeout (sk y) * 2 ^ Z.of_nat (expired l + t) < 2 ^ 64; e_listens : listens x y;
  e_id1 : s_sender_connection_id (sk x) = s_receiver_connection_id (sk y); e_id2 : s_sender_connection_id (sk y) = s_receiver_connection_id (sk x);
  e_ay : s_connected_to (sk y) = ax }.
Lemma lossy_runs ax ay n d fates waits l t x y : engaged ax ay l (expiries waits + t) x y -> survivable n (s_max_retries (sk x)) (s_max_retries (sk y)) (d, fates, waits) ->
  exists x' y' l', lossy ax ay d n fates waits x y x' y' /\ engaged ax ay l' t x' y' /\ s_max_retries (sk x') = s_max_retries (sk x) /\ s_max_retries (sk y') = s_max_retries (sk y).
Proof.
  intros [(RX & SX & PX & BX & WX & UX & MX & IX & TX) AX CX RY DY TY IY WY CY KY HTY (LA & LD & LL) I1 I2 AY] (Hd & Hn & HF & HFx & HF48 & HN & HW).
  pose proof (reachable_ranges x RX) as NX. pose proof (reachable_ranges y RY) as NY.
  assert (CX0 : s_curr_window (sk x) = 0) by (pose proof (reachable_inflight x RX) as H; unfold inflight in H; rewrite WX in H; exact H).
  pose proof (r_seq _ NX) as QX. pose proof (r_lacked _ NX) as LX. pose proof (r_scid _ NX) as DX. pose proof (r_scid _ NY) as DY'.
  destruct (send_one d x Hd ltac:(rewrite SX; discriminate) UX WX CX0 QX ltac:(rewrite !u16_eq; lia) TX) as (x1 & p & E1 & Ep & K1 & L1 & J1 & T1 & _).
  rewrite AX in L1. pose proof (run_send_to _ _ _ _ E1) as O1. pose proof (op_reachable _ _ _ _ RX O1) as RX1. rewrite IX in J1.
  assert (HP : chunkp (s_sender_connection_id (sk x)) (s_seq_nr (sk x)) d p) by (rewrite Ep; unfold data_packet; do 3 eexists; reflexivity). clear Ep.
  set (ks := map fst fates). assert (Hks : all_timeouts ks) by (unfold ks; apply Forall_map; exact HF). assert (Lks : length ks = length fates) by (unfold ks; apply map_length).
  assert (Eks : map (fun f : kind * bool => RxErr (fst f)) fates = map RxErr ks) by (unfold ks; rewrite map_map; reflexivity).
  assert (HTx : s_congestion_timeout (sk x) * 2 ^ Z.of_nat (length ks) < 2 ^ 64).
  { rewrite Lks. eapply Z.le_lt_trans; [apply (Z.mul_le_mono_nonneg _ 60000 _ (2 ^ 48)); [apply (r_cto _ NX)|exact CX|apply Z.pow_nonneg; lia|apply Z.pow_le_mono_r; lia]|]. reflexivity. }
  assert (XS : s_state (sk x1) = Connected /\ s_pending_data (sk x1) = [] /\ s_incoming_buffer (sk x1) = [] /\ s_send_window (sk x1) = [p] /\ s_curr_window (sk x1) = packet_len p /\ s_unsent_queue (sk x1) = [] /\ s_max_retries (sk x1) = s_max_retries (sk x) /\
    s_connected_to (sk x1) = ay /\ s_last_acked (sk x1) = s_last_acked (sk x) /\ s_congestion_timeout (sk x1) = s_congestion_timeout (sk x) /\ s_receiver_connection_id (sk x1) = s_receiver_connection_id (sk x) /\
    s_sender_connection_id (sk x1) = s_sender_connection_id (sk x) /\ s_seq_nr (sk x1) = u16 (s_seq_nr (sk x) + 1)) by (rewrite K1; unfold after_send; sproj; auto 20).
  destruct XS as (S1 & S2 & S3 & S4 & S5 & S6 & S7 & S8 & S9 & S10 & S11 & S12 & S13). assert (TX1 : all_sent x1) by (intros i; rewrite T1; apply TX). clear K1.
  destruct (flush_pends (s_sender_connection_id (sk x)) (s_seq_nr (sk x)) d ks p (script (map RxErr ks) x1) Hks) as (ps & x2 & E2 & N2 & F2 & L2); unfold script; cbn [sk wd]; sproj;
    [rewrite J1; reflexivity|exact S4|exact HP|exact TX1|rewrite S10; apply (r_cto _ NX)|rewrite S10; exact HTx|rewrite S7, Lks; exact HFx|]. fold (script (map RxErr ks) x1) in E2. unfold script in L2; cbn [sk wd] in L2; sproj_in L2. rewrite S8 in L2.
  (* the reader *)
  set (cps := through (map snd fates ++ [true]) (p :: ps)).
  assert (Lc : length waits = length cps) by (unfold cps; rewrite through_len, through_count by (rewrite map_length; congruence); exact HN).
  assert (Fc : Forall (chunkp (s_sender_connection_id (sk x)) (s_seq_nr (sk x)) d) cps) by (apply through_all; constructor; assumption).
  assert (HC1 := combine_fst waits cps Lc). assert (HC2 := combine_snd waits cps Lc).
  destruct (combine waits cps) as [|g gs] eqn:EG; [cbn in HC1; subst waits; cbn in HN; lia|].
  assert (Fg : Forall (chunkp (s_sender_connection_id (sk x)) (s_seq_nr (sk x)) d) (map snd (g :: gs))) by (rewrite HC2; exact Fc). cbn [map] in Fg. pose proof (Forall_inv Fg) as Fg1. pose proof (Forall_inv_tail Fg) as Fg2.
  assert (Wg : Forall (awaited (s_max_retries (sk y))) (g :: gs)).
  { rewrite <- HC1 in HW. clear - HW. induction (g :: gs) as [|h hs IH]; constructor; cbn [map] in HW; inversion HW; subst; auto. }
  pose proof (Forall_inv Wg) as Wg1. pose proof (Forall_inv_tail Wg) as Wg2.
  assert (Eg : expiries waits = (length (fst g) + expired gs)%nat) by (rewrite <- HC1; reflexivity).
  set (ya := script (arrivals ax [g]) y).
  assert (Ex1 : expired (l ++ [g]) = (expired l + length (fst g))%nat) by (unfold expired, expiries; rewrite !map_app, list_sum_app; cbn; lia).
  assert (Ty : s_congestion_timeout (sk y) * (2 ^ Z.of_nat (expired (l ++ [g])) * 2 ^ Z.of_nat (expired gs + t)) < 2 ^ 64).
  { rewrite <- Z.pow_add_r by lia. rewrite <- Nat2Z.inj_add. replace (expired (l ++ [g]) + (expired gs + t))%nat with (expired l + (expiries waits + t))%nat by (rewrite Ex1, Eg, <- !Nat.add_assoc; reflexivity). exact HTY. }
  assert (HPp : forall m, 0 < 2 ^ Z.of_nat m) by (intros m; apply Z.pow_pos_nonneg; lia).
  destruct (shrink _ _ _ _ (proj1 (r_cto _ NY)) (HPp _) (HPp _) Ty) as (Ty1 & _ & Ty3 & Ty4).
  destruct (read_new n ax l g d ya) with (sq := s_seq_nr (sk x)) as (y1 & xs & q1 & E3 & H3 & A3 & D3 & T3 & I3 & X3 & L3 & R3).
  { unfold ya, script. cbn [wd]. sproj. rewrite IY, arrivals_app. reflexivity. } { apply Forall_app. split; [exact WY|]. constructor; [exact Wg1|constructor]. } { exact CY. } { exact DY. } { exact TY. }
  { split; [apply (r_ldrop _ NY)|]. split; [apply (r_rcid _ NY)|apply (r_cto _ NY)]. } { exact KY. } { exact Ty1. } { exact QX. } { change (sk ya) with (sk y). rewrite <- I1. exact Fg1. } { exact Hd. } { exact Hn. } { exact LA. } { exact LD. }
  change (sk ya) with (sk y) in *. change (w_sent (wd ya)) with (w_sent (wd y)) in L3. change (w_send (wd ya)) with (w_send (wd y)) in X3.
  pose proof (run_recv _ _ _ _ _ E3) as O3. assert (RY1 : reachable y1) by (eapply op_reachable; [|exact O3]; apply script_reachable; exact RY).
  pose proof H3 as ((G1 & G2 & G3 & G4 & G5 & G6) & G7 & G8 & G9 & G10 & G11).
  set (y' := script (arrivals ax gs) y1). assert (RY' : reachable y') by (apply script_reachable; exact RY1).
  assert (IY' : w_in (wd y') = arrivals ax gs) by (unfold y', script; cbn [wd]; sproj; rewrite I3; reflexivity).
  assert (Cgs : Forall (fun h => copy_of (sk y') (snd h)) gs).
  { change (sk y') with (sk y1). apply (proj1 (Forall_map snd _ gs)) in Fg2. eapply Forall_impl; [|exact Fg2]. intros h Hh. exists d. split; [exact Hd|]. rewrite G9, D3, <- I1. exact Hh. }
  assert (Wgs : Forall (awaited (s_max_retries (sk y'))) gs) by (change (sk y') with (sk y1); rewrite G6; exact Wg2).
  assert (Ty' : s_congestion_timeout (sk y') * 2 ^ Z.of_nat (expired gs + t) < 2 ^ 64) by (change (sk y') with (sk y1); rewrite T3; exact Ty3).
  assert (TY' : all_sent y') by (intros i; change (w_send (wd y')) with (w_send (wd y1)); rewrite X3; apply TY).
  assert (DY1 : idle (sk y')) by (change (sk y') with (sk y1); eapply held_idle; eassumption).
  assert (HQ : exists q before y2, (if gs then y2 = y1 else run_op (ORecvFrom n) y' = (Fail Pend, y2)) /\ w_sent (wd y2) = w_sent (wd y) ++ before ++ [(ax, q)] /\
    state_reply q (s_sender_connection_id (sk y)) (s_seq_nr (sk y)) (s_seq_nr (sk x))).
  { destruct gs as [|g2 gs]; [exists q1, xs, y1; split; [reflexivity|split; [exact L3|exact R3]]|].
    destruct (read_copies n ax (g2 :: gs) y' IY' Wgs Cgs DY1 TY') as (y2 & zs & q & E4 & L4 & R4).
    - pose proof (reachable_ranges y' RY') as NY'. split; [apply (r_ldrop _ NY')|]. split; [apply (r_rcid _ NY')|apply (r_cto _ NY')].
    - discriminate.
    - change (sk y') with (sk y1). congruence.
    - rewrite Nat2Z.inj_add, Z.pow_add_r in Ty' by lia. destruct (shrink _ _ _ _ (proj1 (r_cto _ (reachable_ranges y' RY'))) (HPp _) (HPp _) Ty') as (H & _). exact H.
    - exists q, (xs ++ [(ax, q1)] ++ zs), y2. split; [cbn [run_op]; unfold bind; rewrite E4; reflexivity|]. split.
      + rewrite L4. change (w_sent (wd y')) with (w_sent (wd y1)). rewrite L3, <- !app_assoc. reflexivity.
      + change (sk y') with (sk y1) in R4. rewrite G8, G10, D3 in R4. exact R4. }
  destruct HQ as (q & before & y2 & Q1 & Q2 & Q3). rewrite I2 in Q3.
  (* the speaker's flush *)
  assert (OX1 : ok (script (map RxErr ks ++ [RxDgram q ay]) x1)) by (apply reachable_ok, script_reachable; exact RX1).
  destruct (flush_acked (s_sender_connection_id (sk x)) (s_seq_nr (sk x)) d ks p q ay (script (map RxErr ks ++ [RxDgram q ay]) x1) Hks) as (ps' & p' & k & x' & E5 & N5 & (c & tm & W5) & R5 & T5 & I5 & X5 & L5); try exact OX1; unfold script; cbn [sk wd]; sproj.
  { rewrite J1. reflexivity. } { exact S4. } { exact HP. } { exact Hd. } { exact QX. } { exact DX. } { exact TX1. } { rewrite S10. apply (r_cto _ NX). } { rewrite S10. exact HTx. } { rewrite S7, Lks. exact HFx. }
  { exact S1. } { exact S2. } { exact S3. } { exact S5. } { rewrite S9. intros E. rewrite E in LL. lia. } { rewrite S11. eauto. } { rewrite S11. apply (r_rcid _ NX). }
  fold (script (map RxErr ks ++ [RxDgram q ay]) x1) in E5. unfold script in L5, X5, W5; cbn [sk wd] in L5, X5, W5; sproj_in L5; sproj_in X5. rewrite S8 in L5.
  pose proof (run_flush _ _ E5) as O5. assert (RX' : reachable x') by (eapply op_reachable; [|exact O5]; apply script_reachable; exact RX1).
  assert (O2 : run_op OFlush (script (map RxErr ks) x1) = (Fail Pend, x2)) by (cbn [run_op]; unfold bind; rewrite E2; reflexivity).
  assert (EP : ps' = ps).
  { destruct (proj2 (proj2 (leads_run_op [RxDgram q ay] OFlush)) (script (map RxErr ks) x1)) as (later & EL). rewrite O2 in EL. cbn [snd] in EL.
    replace (ext [RxDgram q ay] (script (map RxErr ks) x1)) with (script (map RxErr ks ++ [RxDgram q ay]) x1) in EL by (unfold ext, script; cbn [sk wd]; sproj; rewrite <- app_assoc; destruct (wd x1); reflexivity).
    rewrite O5 in EL. cbn [snd] in EL. rewrite L5, L2, <- app_assoc in EL. apply app_inv_head in EL.
    assert (HL : later = []). { apply length_zero_iff_nil. apply (f_equal (@length _)) in EL. rewrite app_length, !map_length in EL. lia. }
    rewrite HL, app_nil_r in EL. apply (f_equal (map snd)) in EL. rewrite !map_map in EL. cbn [snd] in EL. rewrite !map_id in EL. exact EL. }
  subst ps'.
  assert (HR : ack_nr q = s_seq_nr (sk x)) by (destruct Q3 as (ts & tsd & ->); rewrite ack_wire; cbn [h_ack]; apply u16_small; lia).
  assert (KX' : s_state (sk x') = Connected /\ s_pending_data (sk x') = [] /\ s_incoming_buffer (sk x') = [] /\ s_send_window (sk x') = [] /\ s_unsent_queue (sk x') = [] /\ s_max_retries (sk x') = s_max_retries (sk x) /\
    s_connected_to (sk x') = ay /\ s_sender_connection_id (sk x') = s_sender_connection_id (sk x) /\ s_receiver_connection_id (sk x') = s_receiver_connection_id (sk x) /\
    s_seq_nr (sk x') = u16 (s_seq_nr (sk x) + 1) /\ s_last_acked (sk x') = s_seq_nr (sk x)).
  { destruct R5 as (k1 & dl & wn & ts1 & T & ->). destruct T as (? & ? & ? & ? & ? & ? & ? & ->). sproj.
    rewrite (acked_other s_state), (acked_other s_pending_data), (acked_other s_incoming_buffer), (acked_other s_unsent_queue), (acked_other s_max_retries), (acked_other s_connected_to), (acked_other s_sender_connection_id),
      (acked_other s_receiver_connection_id), (acked_other s_seq_nr) by reflexivity. rewrite W5. sproj. rewrite HR. auto 20. }
  destruct KX' as (Z1 & Z2 & Z3 & Z4 & Z5 & Z6 & Z7 & Z8 & Z9 & Z10 & Z11).
  exists x', y', gs. split; [|split; [|split; [exact Z6|change (sk y') with (sk y1); exact G6]]].
  - exists x1, p, ps, q, x2, g, gs, y1, y2, before. rewrite Eks. repeat (split; [first [exact O1|exact L1|exact O2|exact L2|congruence|exact O5|exact L5|exact Z4|exact EG|exact O3|reflexivity|exact Q1]|]). exact Q2.
  - constructor; try assumption.
    + split; [exact RX'|]. repeat (split; [assumption|]). split; [rewrite Z6; exact MX|]. split; [exact I5|]. intros i. rewrite X5. apply TX1.
    + apply T5.
    + intros _. change (sk y') with (sk y1). congruence.
    + unfold listens. change (sk y') with (sk y1). rewrite A3, D3, Z10, Z11, u16_eq. split; [left; lia|]. split; lia.
    + change (sk y') with (sk y1). congruence.
    + change (sk y') with (sk y1). congruence.
    + change (sk y') with (sk y1). congruence.
Qed.

(** ** Any number of messages *)
Lemma lossy_talk_runs ax ay n t ms : forall l x y, engaged ax ay l (all_expiries ms + t) x y -> Forall (survivable n (s_max_retries (sk x)) (s_max_retries (sk y))) ms ->
  exists x' y' l', lossy_talk ax ay n ms x y x' y' /\ engaged ax ay l' t x' y' /\ s_max_retries (sk x') = s_max_retries (sk x) /\ s_max_retries (sk y') = s_max_retries (sk y).
Proof.
  induction ms as [|[[d fates] waits] ms IH]; intros l x y HE HF; [exists x, y, l; split; [constructor|auto]|].
  inversion HF as [|? ? F1 F2]; subst. change (all_expiries ((d, fates, waits) :: ms) + t)%nat with (expiries waits + all_expiries ms + t)%nat in HE. rewrite <- Nat.add_assoc in HE.
  destruct (lossy_runs ax ay n d fates waits l (all_expiries ms + t) x y HE F1) as (x1 & y1 & l1 & H1 & E1 & M1 & M2).
  destruct (IH l1 x1 y1 E1) as (x2 & y2 & l2 & H2 & E2 & M3 & M4); [rewrite M1, M2; exact F2|]. exists x2, y2, l2. split; [econstructor; eassumption|]. split; [exact E2|]. split; congruence.
Qed.
Lemma joined_engaged ax ay t x y : joined ax ay x y -> listens x y -> s_congestion_timeout (sk x) <= 60000 -> s_congestion_timeout (sk y) * 2 ^ Z.of_nat t < 2 ^ 64 -> engaged ax ay [] t x y.
Proof.
  intros (HX & (RY & SY & PY & BY & WY & UY & MY & IY & TY) & AX & AY & I1 & I2) HL HT HTY. constructor; auto; [repeat (split; [assumption|]); assumption|congruence].
Qed.
Lemma lossy_from_rest ax ay n ms x y : joined ax ay x y -> listens x y -> s_congestion_timeout (sk x) <= 60000 -> s_congestion_timeout (sk y) * 2 ^ Z.of_nat (all_expiries ms) < 2 ^ 64 ->
  Forall (survivable n (s_max_retries (sk x)) (s_max_retries (sk y))) ms ->
  exists x' y', lossy_talk ax ay n ms x y x' y' /\ at_ease x' /\ s_congestion_timeout (sk x') <= 60000.
Proof.
  intros HJ HL HT HTY HF. rewrite <- (Nat.add_0_r (all_expiries ms)) in HTY. destruct (lossy_talk_runs ax ay n 0 ms [] x y (joined_engaged _ _ _ _ _ HJ HL HT HTY) HF) as (x' & y' & l & H & E & _). exists x', y'. split; [exact H|]. split; apply E.
Qed.
