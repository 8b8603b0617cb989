(** The opening and the end of a connection over a network that loses packets and answers (C89, C90). *)
From Verif Require Export SpecParting LossyProofs.
Require Import ZifyBool ZifyNat ZifyN.
Local Open Scope Z_scope.
Ltac Zify.zify_post_hook ::= Z.div_mod_to_equations.

(** ** The waits of a close *)
Definition finp (k : socket) (p : packet) : Prop := exists ts, p = wire (mkHdr PFin (s_sender_connection_id k) ts 0 0 (s_seq_nr k) (s_ack_nr k)) [] [].
Lemma fin_once s : s_send_window (sk s) = [] -> s_state (sk s) = FinSent -> timer_fits s -> all_sent s ->
  exists s' p, handle_receive_timeout s = (Ret tt, s') /\ finp (sk s) p /\ sk s' = backed_off (sk s) /\ w_sent (wd s') = w_sent (wd s) ++ [(s_connected_to (sk s), p)] /\ w_in (wd s') = w_in (wd s) /\ w_send (wd s') = w_send (wd s).
Proof.
  intros HW HS HT HX. rewrite timeout_start by exact HT. rewrite HW, HS. cbn [sstate_eqb]. unfold send_fin, bind at 1, get_sk at 1.
  set (t := mkSt (backed_off (sk s)) (wd s)). unfold bind at 1, now_microseconds. unfold bind at 1. fold (ticked t).
  rewrite packet_new_wire, set_cid_wire, set_seq_wire, set_ack_wire, set_ts_wire, set_type_wire. cbn [h_type h_cid h_ts h_tsd h_wnd h_seq h_ack].
  rewrite send_ok_eq by (apply all_sent_ok; exact HX). cbn [try_]. eexists. eexists. split; [reflexivity|]. split; [eexists; reflexivity|].
  unfold tx_state. rewrite (all_sent_ok (ticked t) HX). repeat split; reflexivity.
Qed.
Lemma wait_fins ks : forall s retries rest f, all_timeouts ks -> w_in (wd s) = map RxErr ks ++ rest -> s_send_window (sk s) = [] -> s_state (sk s) = FinSent -> all_sent s ->
  0 <= s_congestion_timeout (sk s) -> s_congestion_timeout (sk s) * 2 ^ Z.of_nat (length ks) < 2 ^ 64 -> retries + Z.of_nat (length ks) <= s_max_retries (sk s) ->
  exists ps s' c t, loop (length ks + f) wait_body retries s = loop f wait_body (retries + Z.of_nat (length ks)) s' /\ length ps = length ks /\ Forall (finp (sk s)) ps /\
    sk s' = ss_cwnd c (ss_congestion_timeout t (sk s)) /\ w_in (wd s') = rest /\ w_send (wd s') = w_send (wd s) /\ w_sent (wd s') = w_sent (wd s) ++ map (pair (s_connected_to (sk s))) ps.
Proof.
  induction ks as [|k ks IH]; intros s retries rest f HK HI HW HS HA H0 HT HM.
  - exists [], s, (s_cwnd (sk s)), (s_congestion_timeout (sk s)). cbn [length Nat.add Z.of_nat map]. rewrite Z.add_0_r, app_nil_r. repeat (split; [auto; reflexivity|]). split; [|auto]. destruct (sk s); reflexivity.
  - inversion_clear HK. cbn [map app] in HI. cbn [length] in *. rewrite Nat2Z.inj_succ, Z.pow_succ_r in * by lia.
    assert (HPw : 0 < 2 ^ Z.of_nat (length ks)) by (apply Z.pow_pos_nonneg; lia).
    set (s1 := mkSt (sk s) (sw_in (map RxErr ks ++ rest) (wd s))).
    destruct (fin_once s1) as (s2 & p & E & P & K2 & L2 & I2 & X2); [exact HW|exact HS|unfold timer_fits; change (sk s1) with (sk s); nia|exact HA|].
    change (sk s1) with (sk s) in *.
    destruct (IH s2 (retries + 1) rest f) as (ps & s3 & c & t & E3 & N3 & F3 & W3 & I3 & X3 & L3); auto.
    { rewrite K2. exact HW. } { rewrite K2. exact HS. } { intros i. rewrite X2. apply HA. } { rewrite K2. unfold backed_off. sproj. lia. } { rewrite K2. unfold backed_off. sproj. nia. } { rewrite K2. unfold backed_off. sproj. lia. }
    exists (p :: ps), s3, c, t. split; [|split; [|split; [|split; [|split; [exact I3|split]]]]].
    + cbn [Nat.add loop]. unfold bind at 1, wait_body at 1, bind at 1, get_sk at 1.
      replace (s_max_retries (sk s) <=? retries) with false by lia. unfold bind at 1, udp_recv. rewrite HI. fold s1. rewrite H. unfold bind at 1. rewrite E. unfold ret at 1.
      rewrite E3. f_equal. lia.
    + cbn [length]. now rewrite N3.
    + constructor; [exact P|]. eapply Forall_impl; [|exact F3]. intros q (ts & ->). exists ts. rewrite K2. reflexivity.
    + rewrite W3, K2. destruct (sk s); reflexivity.
    + rewrite X3. exact X2.
    + rewrite L3, L2, K2. cbn [map]. rewrite <- app_assoc. reflexivity.
Qed.
(** Waiting for the answer to a FIN: a datagram ends it, as do too many timeouts. *)
Lemma fin_waits ks s rest : all_timeouts ks -> w_in (wd s) = map RxErr ks ++ rest -> s_send_window (sk s) = [] -> s_state (sk s) = FinSent -> all_sent s ->
  0 <= s_congestion_timeout (sk s) -> s_congestion_timeout (sk s) * 2 ^ Z.of_nat (length ks) < 2 ^ 64 -> Z.of_nat (length ks) <= s_max_retries (sk s) ->
  exists ps s' c t, length ps = length ks /\ Forall (finp (sk s)) ps /\ sk s' = ss_cwnd c (ss_congestion_timeout t (sk s)) /\ w_in (wd s') = rest /\ w_send (wd s') = w_send (wd s) /\
    w_sent (wd s') = w_sent (wd s) ++ map (pair (s_connected_to (sk s))) ps /\
    (if Z.of_nat (length ks) <? s_max_retries (sk s) then
       match rest with [] => wait_datagram s = (Fail Pend, s') | RxDgram d src :: _ => wait_datagram s = (Ret (firstn 1520 d, src), rx_state s') | _ => True end
     else wait_datagram s = (Fail (Throw KTimedOut), mkSt (ss_state Closed (sk s')) (wd s'))).
Proof.
  intros HK HI HW HS HA H0 HT HM. destruct (wait_fins ks s 0 rest (S (length rest)) HK HI HW HS HA H0 HT ltac:(lia)) as (ps & s' & c & t & E & N & F & W & I & X & L).
  exists ps, s', c, t. repeat (split; [assumption|]). assert (HM' : s_max_retries (sk s') = s_max_retries (sk s)) by (rewrite W; reflexivity).
  rewrite wait_datagram_eq, HI, app_length, map_length. replace (S (length ks + length rest)) with (length ks + S (length rest))%nat by lia.
  rewrite E. destruct (Z.of_nat (length ks) <? s_max_retries (sk s)) eqn:EM.
  - destruct rest as [|[d src|k|] rest]; [| |exact Logic.I|exact Logic.I]; cbn [loop]; unfold bind at 1, wait_body at 1, bind at 1, get_sk at 1;
      (replace (s_max_retries (sk s') <=? 0 + Z.of_nat (length ks)) with false by lia); unfold bind, udp_recv; rewrite I; [reflexivity|]. unfold ret, rx_state. rewrite I. reflexivity.
  - cbn [loop]; unfold bind at 1, wait_body at 1, bind at 1, get_sk at 1. replace (s_max_retries (sk s') <=? 0 + Z.of_nat (length ks)) with true by lia. reflexivity.
Qed.
(** A close of an end at ease, with its FINs. *)
Lemma close_lossy ks rest s : all_timeouts ks -> w_in (wd s) = map RxErr ks ++ rest -> s_state (sk s) = Connected -> s_pending_data (sk s) = [] -> s_incoming_buffer (sk s) = [] -> s_send_window (sk s) = [] -> all_sent s ->
  0 <= s_congestion_timeout (sk s) -> s_congestion_timeout (sk s) * 2 ^ Z.of_nat (length ks) < 2 ^ 64 -> Z.of_nat (length ks) <= s_max_retries (sk s) ->
  (rest = [] \/ Z.of_nat (length ks) < s_max_retries (sk s) /\ exists r src, rest = [RxDgram r src] /\ packet_try_from (firstn 1520 r) = Some (Ok r) /\ get_type r = Some PState /\ own_id (sk s) r /\ ack_nr r = s_seq_nr (sk s)) ->
  exists ps s', length ps = S (length ks) /\ Forall (finp (sk s)) ps /\ w_sent (wd s') = w_sent (wd s) ++ map (pair (s_connected_to (sk s))) ps /\
    (if is_nil rest then if Z.of_nat (length ks) <? s_max_retries (sk s) then close s = (Fail Pend, s') else close s = (Fail (Throw KTimedOut), s')
     else close s = (Ret tt, s') /\ s_state (sk s') = Closed).
Proof.
  intros HK HI ES EP EB EW HX H0 HT HM HR. destruct (close_begins s ES EW HX) as (t & E & K & L & I & X).
  destruct (fin_waits ks t rest HK ltac:(rewrite I; exact HI)) as (ps & t1 & c & tt1 & N & F & K1 & I1 & X1 & L1 & ED); try (rewrite K; sproj; assumption).
  { rewrite K. reflexivity. } { intros i. rewrite X. apply HX. }
  replace (s_max_retries (sk t)) with (s_max_retries (sk s)) in ED by (rewrite K; reflexivity).
  assert (EL : w_sent (wd t1) = w_sent (wd s) ++ map (pair (s_connected_to (sk s))) (fin_of s :: ps)) by (rewrite L1, L, K; sproj; rewrite <- app_assoc; reflexivity).
  assert (EF : Forall (finp (sk s)) (fin_of s :: ps)).
  { constructor; [eexists; reflexivity|]. eapply Forall_impl; [|exact F]. intros q (ts & ->). exists ts. rewrite K. reflexivity. }
  exists (fin_of s :: ps). rewrite E. destruct HR as [->|(HM1 & r & src & -> & HV & HTy & HO & HA)].
  - cbn [is_nil]. destruct (Z.of_nat (length ks) <? s_max_retries (sk s)) eqn:EM.
    + exists t1. split; [cbn; now rewrite N|]. split; [exact EF|]. split; [exact EL|]. cbn [loop]. unfold bind at 1, cbody, bind at 1, get_sk at 1. rewrite K. sproj. cbn [sstate_eqb]. unfold bind at 1. rewrite (recv_pends BUF_SIZE _ _ ED). reflexivity.
    + exists (mkSt (ss_state Closed (sk t1)) (wd t1)). split; [cbn; now rewrite N|]. split; [exact EF|]. split; [exact EL|]. cbn [loop]. unfold bind at 1, cbody, bind at 1, get_sk at 1. rewrite K. sproj. cbn [sstate_eqb]. unfold bind at 1.
      unfold recv, bind at 1, event_fuel. change (recv_fuel (S ?x) BUF_SIZE) with (recv_body (recv_fuel x) BUF_SIZE). unfold recv_body, bind at 1. rewrite ED. reflexivity.
  - cbn [is_nil]. replace (Z.of_nat (length ks) <? s_max_retries (sk s)) with true in ED by lia.
    rewrite HI, app_length. cbn [length]. replace (S (length (map RxErr ks) + 1)) with (S (S (length (map RxErr ks)))) by lia.
    erewrite loop_step; [|unfold cbody, bind at 1, get_sk at 1; rewrite K; sproj; cbn [sstate_eqb]; unfold bind at 1; rewrite (recv_waited _ _ _ _ _ ED)].
    2:{ rewrite (process_packet _ _ _ _ r PState _ HV HTy). unfold bind at 1. rewrite (handle_own _ r src PState (rx_state t1) HTy) by (left; unfold own_id, rx_state; sproj; rewrite K1, K; exact HO).
        unfold dispatch, bind at 1, get_sk at 1. assert (EN : s_state (sk (noted r (rx_state t1))) = FinSent) by (unfold noted; sproj; rewrite (acked_other s_state) by reflexivity; unfold rx_state; sproj; rewrite K1, K; reflexivity). rewrite EN.
        assert (EQ : s_seq_nr (sk (noted r (rx_state t1))) = ack_nr r) by (unfold noted; sproj; rewrite (acked_other s_seq_nr) by reflexivity; unfold rx_state; sproj; rewrite K1, K; auto). rewrite EQ, Z.eqb_refl.
        unfold bind at 1, upd_sk at 1. unfold ret at 1. unfold answer, bind at 1, ret at 1. unfold bind at 1, get_sk at 1. cbn [ptype_eqb andb]. unfold bind at 1, ret at 1. unfold bind at 1.
        rewrite flush_empty; [reflexivity| |]; unfold noted; sproj; [rewrite (acked_other s_pending_data) by reflexivity|rewrite (acked_other s_incoming_buffer) by reflexivity]; unfold rx_state; sproj; rewrite K1, K; assumption. }
    cbn [loop]. unfold bind at 1, cbody, bind at 1, get_sk at 1. sproj. cbn [sstate_eqb]. unfold ret at 1. cbv iota. eexists. split; [cbn; now rewrite N|]. split; [exact EF|]. split; [|split; [reflexivity|reflexivity]].
    unfold noted, rx_state, ticked. sproj. exact EL.
Qed.

(** ** The reader and a FIN *)
Lemma finp_facts k p : finp k p -> 0 <= s_seq_nr k < 65536 -> 0 <= s_sender_connection_id k < 65536 ->
  length p = 20%nat /\ packet_try_from p = Some (Ok p) /\ get_type p = Some PFin /\ seq_nr p = s_seq_nr k /\ connection_id p = s_sender_connection_id k.
Proof.
  intros (ts & ->) HQ HC. split; [rewrite wire_length; reflexivity|]. split; [apply wire_valid; constructor|]. split; [rewrite get_type_wire; reflexivity|].
  split; [rewrite seq_wire; apply u16_small; exact HQ|rewrite cid_wire; apply u16_small; exact HC].
Qed.
Lemma fin_one rec n p src s : idle (sk s) -> all_sent s -> packet_try_from p = Some (Ok p) -> get_type p = Some PFin -> own_id (sk s) p ->
  (s_ack_nr (sk s) = (seq_nr p - 1) mod 65536 \/ s_ack_nr (sk s) = seq_nr p) ->
  exists s' r x, process_datagram rec n p src s = (Ret ([], x), s') /\ state_reply r (s_sender_connection_id (sk s)) (s_seq_nr (sk s)) (seq_nr p) /\
    w_sent (wd s') = w_sent (wd s) ++ [(src, r)] /\ w_in (wd s') = w_in (wd s) /\ s_state (sk s') = Closed /\ s_connected_to (sk s') = s_connected_to (sk s) /\
    s_pending_data (sk s') = [] /\ s_incoming_buffer (sk s') = [] /\ s_send_window (sk s') = [].
Proof.
  intros (ES & EP & EB & EW & EU & HM) HX HV HT HO HA. rewrite (process_packet _ _ _ _ p PFin _ HV HT). unfold bind at 1.
  rewrite (handle_own _ p src PFin s HT (or_introl HO)). pose proof (seq_nr_range p) as HQ.
  assert (EK : sk (noted p s) = ss_their_delay (abs_diff (clock_now s) (timestamp p)) (ss_remote_wnd_size (wnd_size p) (ss_ack_nr (seq_nr p) (sk s)))).
  { unfold noted. cbn [sk]. do 2 f_equal. unfold acked_sk. rewrite u16_eq. destruct HA as [HA|HA]; rewrite HA.
    - replace (_ =? 1) with true by lia. reflexivity.
    - replace (_ =? 1) with false by lia. rewrite <- HA. destruct (sk s); reflexivity. }
  remember (noted p s) as t eqn:Et. assert (Ewd : wd t = wd (ticked s)) by (rewrite Et; reflexivity). clear Et.
  assert (K1 : s_ack_nr (sk t) = seq_nr p) by (rewrite EK; reflexivity). assert (K2 : s_state (sk t) = Connected) by (rewrite EK; exact ES).
  assert (K3 : s_incoming_buffer (sk t) = []) by (rewrite EK; exact EB). assert (K4 : s_pending_data (sk t) = []) by (rewrite EK; exact EP). assert (K5 : s_send_window (sk t) = []) by (rewrite EK; exact EW).
  assert (K6 : s_connected_to (sk t) = s_connected_to (sk s) /\ s_sender_connection_id (sk t) = s_sender_connection_id (sk s) /\ s_seq_nr (sk t) = s_seq_nr (sk s)) by (rewrite EK; auto). destruct K6 as (K6 & K7 & K8).
  unfold dispatch, bind at 1, get_sk at 1. rewrite K2. unfold bind at 1. rewrite prepare_reply_eq.
  assert (ES2 : attach_sack p (reply_to p PState t) (ticked t) = (Ret (reply_to p PState t), ticked t)).
  { unfold attach_sack, bind at 1, get_sk at 1. change (sk (ticked t)) with (sk t). rewrite K1, Z.sub_diag. reflexivity. }
  unfold bind at 1. rewrite ES2. unfold bind at 1, upd_sk at 1. unfold ret at 1. unfold answer. unfold bind at 1. unfold bind at 1.
  match goal with |- context [udp_send src ?q ?t] => set (r := q); set (t1 := t) end.
  assert (EX : tx_ok t1 = true) by (apply all_sent_ok; unfold all_sent, t1; cbn [ticked wd]; sproj; rewrite Ewd; exact HX).
  rewrite (send_ok_eq src r t1 EX). cbn [try_ ret]. unfold bind at 1, get_sk at 1. cbn [ptype_eqb andb]. unfold bind at 1, ret at 1. unfold bind at 1.
  change (sk (tx_state src r t1)) with (ss_state Closed (sk t)). rewrite flush_empty by assumption. unfold ret at 1.
  eexists. exists r. eexists. split; [reflexivity|]. split.
  { exists (clock_now t), (u32 (abs_diff (clock_now t) (timestamp p))). unfold r, reply_to. rewrite set_wnd_wire, K1, K7, K8. reflexivity. }
  change (sk (tx_state src r t1)) with (ss_state Closed (sk t)). sproj. unfold tx_state. rewrite EX. unfold t1, ticked. sproj. rewrite Ewd. unfold ticked. sproj. auto 10.
Qed.
(** A read that first answers the copies [l] of what was delivered last and then gets a FIN. *)
Lemma read_fin n ax l w p s : w_in (wd s) = arrivals ax (l ++ [(w, p)]) -> Forall (awaited (s_max_retries (sk s))) (l ++ [(w, p)]) -> Forall (fun g => copy_of (sk s) (snd g)) l -> idle (sk s) -> all_sent s -> bounded (sk s) ->
  (l <> [] -> s_ack_nr (sk s) = s_last_dropped (sk s)) -> s_congestion_timeout (sk s) * 2 ^ Z.of_nat (expired (l ++ [(w, p)])) < 2 ^ 64 ->
  length p = 20%nat -> packet_try_from p = Some (Ok p) -> get_type p = Some PFin -> connection_id p = s_receiver_connection_id (sk s) ->
  (s_ack_nr (sk s) = (seq_nr p - 1) mod 65536 \/ s_ack_nr (sk s) = seq_nr p) ->
  exists s1 xs q, recv_from n s = (Ret ([], s_connected_to (sk s)), s1) /\ w_sent (wd s1) = w_sent (wd s) ++ xs ++ [(ax, q)] /\
    state_reply q (s_sender_connection_id (sk s)) (s_seq_nr (sk s)) (seq_nr p) /\ s_state (sk s1) = Closed /\ s_pending_data (sk s1) = [] /\ s_incoming_buffer (sk s1) = [] /\ s_send_window (sk s1) = [].
Proof.
  intros HI HW HC HD HX HB HA HT PL PV PT PC HK. apply Forall_app in HW as (W1 & W2). inversion W2 as [|? ? (W3 & W4) _]; subst. cbn [fst] in W3, W4.
  assert (EE : expired (l ++ [(w, p)]) = (expired l + length w)%nat) by (unfold expired, expiries; rewrite !map_app, list_sum_app; cbn; lia). rewrite EE in *.
  rewrite Nat2Z.inj_add, Z.pow_add_r in * by lia. assert (0 < 2 ^ Z.of_nat (expired l)) by (apply Z.pow_pos_nonneg; lia). assert (0 < 2 ^ Z.of_nat (length w)) by (apply Z.pow_pos_nonneg; lia).
  rewrite recv_from_idle by exact HD. pose proof HB as (B1 & B2 & B3). destruct (shrink _ _ _ _ B3 H H0 HT) as (HT1 & HT2 & HT3 & HT4).
  pose proof (arrivals_length ax (l ++ [(w, p)])) as HN. rewrite <- HI in HN. rewrite app_length in HN. cbn [length] in HN. rewrite arrivals_app in HI.
  replace (S (length (w_in (wd s)))) with (length l + S (S (length (w_in (wd s)) - S (length l))))%nat by lia.
  destruct (copies_loop n ax l s _ (S (S (length (w_in (wd s)) - S (length l)))) HI W1 HC HD HX HB HA HT1) as (s1 & xs & E & K & A1 & D1 & T1 & I1 & X1 & L1 & R1). rewrite E.
  pose proof K as ((_ & _ & _ & _ & _ & M1) & C1 & S1 & R & Q1 & _). cbn [arrivals flat_map fst snd] in I1. rewrite app_nil_r in I1.
  assert (HX1 : all_sent s1) by (intros i; rewrite X1; apply HX). pose proof (held_idle _ _ K HD) as HD1.
  destruct (group_waits n w p ax [] s1 W3 I1 HD1 HX1 ltac:(lia)) as (rec & ys & s2 & E2 & K2 & A2 & D2 & T2 & I2 & X2 & L2); [rewrite T1; exact HT4|rewrite T1; exact HT3|rewrite M1; exact W4|].
  pose proof K2 as ((_ & _ & _ & _ & _ & M2) & C2 & S2 & R2 & Q2 & _).
  destruct (fin_one rec n p ax s2 (held_idle _ _ K2 HD1) ltac:(intros i; rewrite X2; apply HX1) PV PT ltac:(right; congruence) ltac:(rewrite A2, A1; exact HK)) as (s3 & q & a & E3 & P3 & L3 & I3 & G1 & G2 & G3 & G4 & G5).
  exists s3, (xs ++ ys), q. split; [|split; [rewrite L3, L2, L1, <- !app_assoc; reflexivity|split; [rewrite S2, Q2, S1, Q1 in P3; exact P3|auto]]].
  - erewrite loop_step; [|rewrite rbody_recv by apply HD1; rewrite E2, E3; cbn [fst is_nil]; reflexivity].
    cbn [loop]. unfold bind at 1, rbody, bind at 1, get_sk at 1. rewrite G1. cbn [sstate_eqb]. unfold ret. rewrite G2. congruence.
Qed.
(** A FIN of the connection ends it whatever its number. *)
Lemma fin_any rec n p src s : idle (sk s) -> all_sent s -> packet_try_from p = Some (Ok p) -> get_type p = Some PFin -> own_id (sk s) p ->
  exists s' r x, process_datagram rec n p src s = (Ret ([], x), s') /\ w_sent (wd s') = w_sent (wd s) ++ [(src, r)] /\ w_in (wd s') = w_in (wd s) /\ s_state (sk s') = Closed /\
    s_connected_to (sk s') = s_connected_to (sk s) /\ s_pending_data (sk s') = [] /\ s_incoming_buffer (sk s') = [] /\ s_send_window (sk s') = [].
Proof.
  intros (ES & EP & EB & EW & EU & HM) HX HV HT HO. rewrite (process_packet _ _ _ _ p PFin _ HV HT). unfold bind at 1.
  rewrite (handle_own _ p src PFin s HT (or_introl HO)).
  assert (EK : s_state (sk (noted p s)) = Connected /\ s_incoming_buffer (sk (noted p s)) = [] /\ s_pending_data (sk (noted p s)) = [] /\ s_send_window (sk (noted p s)) = [] /\ s_connected_to (sk (noted p s)) = s_connected_to (sk s)).
  { unfold noted. cbn [sk]. unfold acked_sk. destruct (_ =? 1); sproj; auto 10. }
  remember (noted p s) as t eqn:Et. assert (Ewd : wd t = wd (ticked s)) by (rewrite Et; reflexivity). clear Et. destruct EK as (K2 & K3 & K4 & K5 & K6).
  unfold dispatch, bind at 1, get_sk at 1. rewrite K2. unfold bind at 1. rewrite prepare_reply_eq.
  assert (ES2 : attach_sack p (reply_to p PState t) (ticked t) = (Ret (reply_to p PState t), ticked t)).
  { unfold attach_sack, bind at 1, get_sk at 1. change (sk (ticked t)) with (sk t). destruct (1 <? _); [|reflexivity]. unfold build_selective_ack, bind, get_sk. change (sk (ticked t)) with (sk t). rewrite K3. reflexivity. }
  unfold bind at 1. rewrite ES2. unfold bind at 1, upd_sk at 1. unfold ret at 1. unfold answer. unfold bind at 1. unfold bind at 1.
  match goal with |- context [udp_send src ?q ?t] => set (r := q); set (t1 := t) end.
  assert (EX : tx_ok t1 = true) by (apply all_sent_ok; unfold all_sent, t1; cbn [ticked wd]; sproj; rewrite Ewd; exact HX).
  rewrite (send_ok_eq src r t1 EX). cbn [try_ ret]. unfold bind at 1, get_sk at 1. cbn [ptype_eqb andb]. unfold bind at 1, ret at 1. unfold bind at 1.
  change (sk (tx_state src r t1)) with (ss_state Closed (sk t)). rewrite flush_empty by assumption. unfold ret at 1.
  eexists. exists r. eexists. split; [reflexivity|].
  change (sk (tx_state src r t1)) with (ss_state Closed (sk t)). sproj. unfold tx_state. rewrite EX. unfold t1, ticked. sproj. rewrite Ewd. unfold ticked. sproj. auto 10.
Qed.
Lemma read_only_fin n ax p s : w_in (wd s) = [RxDgram p ax] -> idle (sk s) -> all_sent s -> length p = 20%nat -> packet_try_from p = Some (Ok p) -> get_type p = Some PFin -> connection_id p = s_receiver_connection_id (sk s) ->
  exists s1 q, recv_from n s = (Ret ([], s_connected_to (sk s)), s1) /\ w_sent (wd s1) = w_sent (wd s) ++ [(ax, q)] /\
    s_state (sk s1) = Closed /\ s_pending_data (sk s1) = [] /\ s_incoming_buffer (sk s1) = [] /\ s_send_window (sk s1) = [].
Proof.
  intros HI HD HX PL PV PT PC. rewrite recv_from_idle, HI by exact HD. cbn [length].
  destruct (fin_any (recv_fuel (length (w_in (wd s)))) n p ax (rx_state s) HD HX PV PT (or_intror PC)) as (s1 & q & a & E & L & _ & G1 & G2 & G3 & G4 & G5).
  exists s1, q. split; [|split; [exact L|auto]].
  erewrite loop_step; [|rewrite rbody_recv by apply HD; rewrite (recv_first n p ax [] s HI) by apply HD; rewrite firstn_all2 by (change (BUF_SIZE + HEADER_SIZE)%nat with 1520%nat; lia); rewrite E; cbn [fst is_nil]; reflexivity].
  cbn [loop]. unfold bind at 1, rbody, bind at 1, get_sk at 1. rewrite G1. cbn [sstate_eqb]. unfold ret. rewrite G2. reflexivity.
Qed.

(** ** The end *)
Lemma double_48 c m : 0 <= c <= 60000 -> (m <= 48)%nat -> c * 2 ^ Z.of_nat m < 2 ^ 64.
Proof.
  intros Hc Hm. apply Z.le_lt_trans with (60000 * 2 ^ 48); [|reflexivity].
  apply Z.mul_le_mono_nonneg; [lia|lia|apply Z.pow_nonneg; lia|apply Z.pow_le_mono_r; lia].
Qed.
Lemma script_script a b s : script b (script a s) = script (a ++ b) s.
Proof. unfold script. cbn [sk wd]. sproj. rewrite app_assoc. destruct (wd s). reflexivity. Qed.
Lemma close_same ks more x : forall a ps ps', w_sent (wd (snd (run_op OClose (script ks x)))) = w_sent (wd x) ++ map (pair a) ps ->
  w_sent (wd (snd (run_op OClose (script (ks ++ more) x)))) = w_sent (wd x) ++ map (pair a) ps' -> length ps = length ps' -> ps' = ps.
Proof.
  intros a ps ps' H1 H2 HL. destruct (proj2 (proj2 (leads_run_op more OClose)) (script ks x)) as (later & EL). change (ext more (script ks x)) with (script more (script ks x)) in EL.
  rewrite script_script, H1, H2, <- app_assoc in EL. apply app_inv_head in EL.
  assert (later = []) by (apply (f_equal (@length _)) in EL; rewrite app_length, !map_length in EL; destruct later; [reflexivity|cbn in EL; lia]). subst later. rewrite app_nil_r in EL.
  apply (f_equal (map snd)) in EL. rewrite !map_map in EL. cbn [snd] in EL. now rewrite !map_id in EL.
Qed.
Lemma parting_runs ax ay n ks w l x y : engaged ax ay l (length w) x y -> patient (s_max_retries (sk x)) (s_max_retries (sk y)) ks w -> exists x' y', parting ax ay n ks w x y x' y'.
Proof.
  intros HE (K1 & K2 & K3 & K4 & K5). destruct HE as [(RX & SX & PX & BX & WX & UX & MX & IX & TX) AX CX RY DY TY IY WY CY KY ETY (HA & _) I1 I2 AY].
  pose proof (reachable_ranges x RX) as NX. pose proof (reachable_ranges y RY) as NY. pose proof (r_seq _ NX) as QX. pose proof (r_seq _ NY) as QY. pose proof (r_scid _ NX) as DX. pose proof (r_scid _ NY) as DY'.
  pose proof (r_cto _ NX) as C0. pose proof (double_48 _ _ (conj (proj1 C0) CX) K3) as HT.
  destruct (close_lossy ks [] (script (map RxErr ks) x)) as (fins & x1 & N1 & F1 & L1 & E1); auto; [unfold script; cbn [wd]; sproj; rewrite IX, app_nil_r; reflexivity|apply C0|change (sk (script (map RxErr ks) x)) with (sk x); lia|].
  change (sk (script (map RxErr ks) x)) with (sk x) in *. change (w_sent (wd (script (map RxErr ks) x))) with (w_sent (wd x)) in L1. cbn [is_nil] in E1. replace (_ <? _) with true in E1 by lia.
  set (p := last fins []). assert (PP : finp (sk x) p).
  { unfold p. destruct fins as [|f fins]; [discriminate|]. rewrite Forall_forall in F1. apply F1. clear. revert f. induction fins as [|g fins IH]; intros f; [now left|]. right. apply (IH g). }
  destruct (finp_facts _ _ PP QX DX) as (P1 & P2 & P3 & P4 & P5).
  destruct (read_fin n ax l w p (script (map RxErr w ++ [RxDgram p ax]) y)) as (y' & before & q & E2 & L2 & (ts & tsd & Eq) & S2 & _).
  { unfold script. cbn [wd]. sproj. rewrite IY, arrivals_app. cbn [arrivals flat_map fst snd]. rewrite app_nil_r. reflexivity. }
  { apply Forall_app. split; [exact WY|]. constructor; [split; [exact K4|exact K5]|constructor]. } { exact CY. } { exact DY. } { exact TY. }
  { split; [apply NY|]. split; [apply NY|]. apply (r_cto _ NY). } { exact KY. }
  { replace (expired (l ++ [(w, p)])) with (expired l + length w)%nat by (unfold expired, expiries; rewrite !map_app, list_sum_app; cbn; lia). exact ETY. }
  { exact P1. } { exact P2. } { exact P3. } { change (sk (script (map RxErr w ++ [RxDgram p ax]) y)) with (sk y). congruence. } { rewrite P4. exact HA. }
  change (sk (script (map RxErr w ++ [RxDgram p ax]) y)) with (sk y) in *. change (w_sent (wd (script (map RxErr w ++ [RxDgram p ax]) y))) with (w_sent (wd y)) in L2. rewrite AY in E2.
  assert (Qlen : length q = 20%nat) by (rewrite Eq, wire_length; reflexivity).
  assert (Qval : packet_try_from (firstn 1520 q) = Some (Ok q)) by (rewrite firstn_all2 by lia; rewrite Eq; apply wire_valid; constructor).
  assert (Qty : get_type q = Some PState) by (rewrite Eq, get_type_wire; reflexivity).
  assert (Qcid : connection_id q = s_receiver_connection_id (sk x)) by (rewrite Eq, cid_wire; cbn [h_cid]; rewrite u16_small by lia; exact I2).
  assert (Qack : ack_nr q = s_seq_nr (sk x)) by (rewrite Eq, ack_wire; cbn [h_ack]; rewrite P4; apply u16_small; lia).
  destruct (close_lossy ks [RxDgram q ay] (script (map RxErr ks ++ [RxDgram q ay]) x)) as (fins' & x' & N3 & F3 & L3 & E3); auto; [unfold script; cbn [wd]; sproj; rewrite IX; reflexivity|apply C0|change (sk (script (map RxErr ks ++ [RxDgram q ay]) x)) with (sk x); lia|right; split; [exact K2|exists q, ay; repeat (split; [assumption || reflexivity|]); split; [right; exact Qcid|exact Qack]]|].
  change (sk (script (map RxErr ks ++ [RxDgram q ay]) x)) with (sk x) in *. change (w_sent (wd (script (map RxErr ks ++ [RxDgram q ay]) x))) with (w_sent (wd x)) in L3. cbn [is_nil] in E3. destruct E3 as (E3 & S3).
  assert (O1 : run_op OClose (script (map RxErr ks) x) = (Fail Pend, x1)) by (cbn [run_op]; unfold bind; rewrite E1; reflexivity).
  assert (O3 : run_op OClose (script (map RxErr ks ++ [RxDgram q ay]) x) = (Ret VUnit, x')) by (cbn [run_op]; unfold bind; rewrite E3; reflexivity).
  assert (EF : fins' = fins) by (apply (close_same (map RxErr ks) [RxDgram q ay] x) with (a := s_connected_to (sk x)); [rewrite O1; exact L1|rewrite O3; exact L3|lia]). subst fins'. rewrite AX in L1, L3.
  exists x', y', fins, x1, before, q. split; [exact O1|]. split; [exact L1|]. split; [exact N1|]. split; [apply run_recv; exact E2|]. split; [exact L2|].
  split; [exact O3|]. split; [exact L3|]. split; [exact S3|]. split; [exact S2|]. cbn [run_op]. unfold close, bind, get_sk. rewrite S2. reflexivity.
Qed.
Lemma whole_runs ac al asv c0 s0 n ms ks0 ks w (client_speaks : bool) : untouched c0 -> untouched s0 -> (client_speaks = false -> 0 < w_rand (wd s0) (S (w_rtick (wd s0))) mod 65536 <= 32768) ->
  all_timeouts ks0 -> (length ks0 < 5)%nat -> Forall (survivable n 5 5) ms -> patient 5 5 ks w -> (all_expiries ms + length w <= 54)%nat ->
  exists c s, opening ac al asv ks0 c0 s0 c s /\
    if client_speaks then exists c2 s2 c3 s3, lossy_talk ac asv n ms c s c2 s2 /\ parting ac asv n ks w c2 s2 c3 s3
    else exists s2 c2 s3 c3, lossy_talk asv ac n ms s c s2 c2 /\ parting asv ac n ks w s2 c2 s3 c3.
Proof.
  intros HC HS HB HK0 HN0 HF HP HE. destruct (opening_runs ac al asv ks0 c0 s0 HC HS HK0 HN0) as (c & s & H1 & H2 & H3 & _ & H4 & H5 & _ & _ & (C1 & C2) & S1 & S2 & _).
  assert (HT : 1000 * 2 ^ Z.of_nat (all_expiries ms + length w) < 2 ^ 64).
  { apply Z.le_lt_trans with (1000 * 2 ^ 54); [apply Z.mul_le_mono_nonneg_l; [lia|apply Z.pow_le_mono_r; lia]|reflexivity]. }
  exists c, s. split; [exact H1|].
  assert (HG : forall ax ay x y, engaged ax ay [] (all_expiries ms + length w) x y -> s_max_retries (sk x) = 5 -> s_max_retries (sk y) = 5 -> exists x2 y2 x3 y3, lossy_talk ax ay n ms x y x2 y2 /\ parting ax ay n ks w x2 y2 x3 y3).
  { intros ax ay x y HG MX MY. destruct (lossy_talk_runs ax ay n (length w) ms [] x y HG) as (x2 & y2 & l & T & E & M1 & M2); [rewrite MX, MY; exact HF|].
    destruct (parting_runs ax ay n ks w l x2 y2 E) as (x3 & y3 & P); [rewrite M1, M2, MX, MY; exact HP|]. exists x2, y2, x3, y3. auto. }
  destruct client_speaks; apply HG; auto; apply joined_engaged; auto; [lia|rewrite S1; exact HT|now apply joined_sym|rewrite <- H4 in HB; auto|lia|rewrite C1; exact HT].
Qed.

(** ** A lost answer to the FIN *)
(** A closed socket with nothing to deliver or in flight never sends anything. *)
Definition gone (s : st) : Prop := s_state (sk s) = Closed /\ s_pending_data (sk s) = [] /\ s_incoming_buffer (sk s) = [] /\ s_send_window (sk s) = [].
Lemma gone_op o s : gone s -> gone (snd (run_op o s)) /\ w_sent (wd (snd (run_op o s))) = w_sent (wd s).
Proof.
  intros (ES & EP & EB & EW). destruct o as [n|d| | |m|]; cbn [run_op].
  - assert (E : recv_from n s = (Ret ([], s_connected_to (sk s)), s)).
    { unfold recv_from. unfold bind at 1. rewrite (flush_empty n s EP EB). unfold bind at 1, get_sk at 1. cbn [is_nil negb]. rewrite ES. cbn [sstate_eqb].
      unfold bind at 1, event_fuel. cbn [loop]. unfold bind at 1. unfold bind at 1, get_sk at 1. rewrite ES. reflexivity. }
    unfold bind. rewrite E. cbn [snd ret]. repeat split; assumption.
  - unfold send_to, bind, get_sk. rewrite ES. cbn [sstate_eqb snd]. repeat split; assumption.
  - unfold bind. assert (EF : flush s = (Ret tt, s)) by (rewrite flush_eq; cbn [loop]; unfold bind at 1, flush_body, bind at 1, get_sk at 1; rewrite EW; reflexivity). rewrite EF. cbn [snd ret]. repeat split; assumption.
  - unfold bind, close, bind, get_sk. rewrite ES. cbn [snd ret]. repeat split; assumption.
  - cbn. repeat split; assumption.
  - unfold bind, peer_addr, bind, get_sk. rewrite ES. cbn. repeat split; assumption.
Qed.
Lemma gone_ops ops : forall s, gone s -> w_sent (wd (snd (run_ops ops s))) = w_sent (wd s).
Proof.
  induction ops as [|o ops IH]; intros s HG; [reflexivity|]. cbn [run_ops]. destruct (gone_op o s HG) as (H1 & H2). destruct (run_op o s) as [r s1] eqn:E. cbn [snd] in H1, H2.
  specialize (IH s1 H1). destruct (run_ops ops s1) as [rs s2] eqn:E2. cbn [snd] in *. destruct r as [|[]]; cbn [snd]; congruence.
Qed.
Lemma spurned_runs ax ay n ks i x y : joined ax ay x y -> all_timeouts ks -> Z.of_nat (length ks) = s_max_retries (sk x) -> s_congestion_timeout (sk x) * 2 ^ Z.of_nat (length ks) < 2 ^ 64 -> (i <= length ks)%nat ->
  exists x' y', spurned ax ay n ks i x y x' y'.
Proof.
  intros (HX & HY & AX & AY & I1 & I2) HK HM HT Hi. destruct HX as (RX & SX & PX & BX & WX & UX & MX & IX & TX). destruct HY as (RY & SY & PY & BY & WY & UY & MY & IY & TY).
  pose proof (reachable_ranges x RX) as NX. pose proof (r_seq _ NX) as QX. pose proof (r_scid _ NX) as DX. pose proof (r_cto _ NX) as C0.
  destruct (close_lossy ks [] (script (map RxErr ks) x)) as (fins & x1 & N1 & F1 & L1 & E1); auto; [unfold script; cbn [wd]; sproj; rewrite IX, app_nil_r; reflexivity|apply C0|change (sk (script (map RxErr ks) x)) with (sk x); lia|].
  change (sk (script (map RxErr ks) x)) with (sk x) in *. change (w_sent (wd (script (map RxErr ks) x))) with (w_sent (wd x)) in L1. cbn [is_nil] in E1. replace (_ <? _) with false in E1 by lia.
  set (p := nth i fins []). assert (PP : finp (sk x) p) by (rewrite Forall_forall in F1; apply F1; apply nth_In; lia).
  destruct (finp_facts _ _ PP QX DX) as (P1 & P2 & P3 & P4 & P5).
  destruct (read_only_fin n ax p (arrive ax [p] y)) as (y' & q & E2 & L2 & G); auto.
  { unfold arrive. cbn [wd]. sproj. rewrite IY. reflexivity. } { repeat (split; [assumption|]). assumption. } { change (sk (arrive ax [p] y)) with (sk y). congruence. } 
  change (sk (arrive ax [p] y)) with (sk y) in E2. change (w_sent (wd (arrive ax [p] y))) with (w_sent (wd y)) in L2. rewrite AY in E2. rewrite AX in L1.
  exists x1, y', fins, q. split; [cbn [run_op]; unfold bind; rewrite E1; reflexivity|]. split; [exact L1|]. split; [exact N1|]. split; [lia|]. split; [apply run_recv; exact E2|]. split; [exact L2|].
  intros evs ops. exact (gone_ops ops (script evs y') G).
Qed.

(** ** Repeated SYNs *)
Lemma accepted_too_runs ac al ks i c0 s1 : untouched c0 -> untouched s1 -> all_timeouts ks -> (length ks < 5)%nat -> (i <= length ks)%nat ->
  exists s2, accepted_too ac al ks i c0 s1 s2 /\ at_ease s2 /\ s_connected_to (sk s2) = ac /\
    s_receiver_connection_id (sk s2) = Z.min (w_rand (wd c0) (w_rtick (wd c0)) mod 65536) 65534 + 1 /\ s_sender_connection_id (sk s2) = Z.min (w_rand (wd c0) (w_rtick (wd c0)) mod 65536) 65534.
Proof.
  intros (CS & CI & CX) (SS & SI & SX) HF HN Hi. pose proof (next_random_range c0) as HR.
  set (f := syn_at (Z.min (next_random c0) 65534) 1 al c0). set (syns := map (fun i => snd (f i)) (seq 0 (S (length ks)))).
  set (syn := snd (f i)). assert (HM : map f (seq 0 (S (length ks))) = map (pair al) syns) by (unfold syns; rewrite map_map; reflexivity).
  assert (HL : length syns = S (length ks)) by (unfold syns; rewrite map_length, seq_length; reflexivity).
  assert (HS : nth i syns [] = syn). { unfold syns. rewrite (nth_indep _ [] (snd (f 0%nat))) by (rewrite map_length, seq_length; lia). rewrite (map_nth (fun i => snd (f i))), seq_nth by lia. reflexivity. }
  assert (Slen : length syn = 20%nat) by (unfold syn, f, syn_at; cbn [snd]; rewrite wire_length; reflexivity).
  assert (Sval : packet_try_from (firstn 1500 syn) = Some (Ok syn)) by (rewrite firstn_all2 by lia; apply wire_valid; constructor).
  assert (Sty : get_type syn = Some PSyn) by (unfold syn, f, syn_at; cbn [snd]; rewrite get_type_wire; reflexivity).
  assert (Scid : connection_id syn = Z.min (next_random c0) 65534) by (unfold syn, f, syn_at; cbn [snd]; rewrite cid_wire; cbn [h_cid]; apply u16_small; lia). clearbody syn.
  destruct (accept_one syn ac syn al s1 Sval Sty ltac:(lia) SX) as (r & s & E1 & _ & Rlen & L1 & I1 & W1 & (O1 & O2 & O3 & O4 & O5 & O6 & O7) & F1 & F2 & F3 & F4 & F5 & F6 & F7).
  destruct (connect_waits al [] ks (script (map RxErr ks) c0)) as (c1 & E0 & L0); [unfold script; cbn [wd]; sproj; rewrite CI; reflexivity|exact HF|exact HN|exact CX|].
  change (next_random (script (map RxErr ks) c0)) with (next_random c0) in L0. change (syn_at (Z.min (next_random c0) 65534) 1 al (script (map RxErr ks) c0)) with f in L0. rewrite HM in L0.
  change (w_sent (wd (script (map RxErr ks) c0))) with (w_sent (wd c0)) in L0.
  exists s. split; [exists syns, r, [], al, c1; rewrite HS; repeat (split; [assumption|]); split; [lia|auto]|].
  split; [split; [eapply rc_accept; [exact SS|exact E1]|]; repeat (split; [assumption|]); split; [lia|]; split; [rewrite I1; exact SI|intros j; rewrite W1; apply SX]|].
  split; [exact O1|]. rewrite O4, O3, Scid. fold (next_random c0). split; [apply Z.mod_small; lia|reflexivity].
Qed.
Lemma ended_by_runs ac az n z c : at_ease z -> at_ease c -> s_connected_to (sk z) = ac -> s_sender_connection_id (sk z) = s_receiver_connection_id (sk c) -> ended_by ac az n z c.
Proof.
  intros (RX & SX & PX & BX & WX & UX & MX & IX & TX) (RY & SY & PY & BY & WY & UY & MY & IY & TY) AX I1.
  pose proof (reachable_ranges z RX) as NX. pose proof (r_seq _ NX) as QX. pose proof (r_scid _ NX) as DX. pose proof (r_cto _ NX) as C0.
  destruct (close_lossy [] [] z) as (fins & x1 & N1 & F1 & L1 & E1); auto; [apply C0|cbn [length Z.of_nat]; rewrite Z.pow_0_r, Z.mul_1_r; apply C0|cbn; lia|].
  cbn [is_nil length Z.of_nat] in E1. replace (_ <? _) with true in E1 by lia.
  destruct fins as [|f [|]]; try discriminate. inversion F1 as [|? ? PP _]; subst.
  destruct (finp_facts _ _ PP QX DX) as (P1 & P2 & P3 & P4 & P5).
  destruct (read_only_fin n az f (arrive az [f] c)) as (y' & q & E2 & L2 & G & _); auto.
  { unfold arrive. cbn [wd]. sproj. rewrite IY. reflexivity. } { repeat (split; [assumption|]). assumption. } { change (sk (arrive az [f] c)) with (sk c). congruence. }
  exists f, x1, y'. eexists. split; [cbn [run_op]; unfold bind; rewrite E1; reflexivity|]. split; [exact L1|]. split; [apply run_recv; exact E2|exact G].
Qed.
Lemma twice_runs ac al asv az n ks i c0 s0 s1 : untouched c0 -> untouched s0 -> untouched s1 -> all_timeouts ks -> (length ks < 5)%nat -> (i < length ks)%nat ->
  exists c s s2, opening ac al asv ks c0 s0 c s /\ joined ac asv c s /\ accepted_too ac al ks i c0 s1 s2 /\ s_sender_connection_id (sk s2) = s_sender_connection_id (sk s) /\ ended_by ac az n s2 c.
Proof.
  intros HC HS HS1 HF HN Hi. destruct (opening_runs ac al asv ks c0 s0 HC HS HF HN) as (c & s & H1 & H2 & _ & _ & _ & _ & _ & _ & _ & _ & _ & _ & HR & _).
  destruct (accepted_too_runs ac al ks i c0 s1 HC HS1 HF HN ltac:(lia)) as (s2 & A1 & A2 & A3 & A4 & A5).
  exists c, s, s2. split; [exact H1|]. split; [exact H2|]. split; [exact A1|]. split; [destruct H2 as (_ & _ & _ & _ & _ & I2); congruence|]. apply ended_by_runs; [exact A2|apply H2|exact A3|].
  rewrite A5, HR. reflexivity.
Qed.
