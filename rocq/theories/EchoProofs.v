(** The example program echo-server and a client of it (C103). *)
From Verif Require Export SpecEcho CatProofs.
Require Import Lia ZifyBool ZifyNat ZifyN.
Local Open Scope Z_scope.
Ltac Zify.zify_post_hook ::= Z.div_mod_to_equations.

(** ** One packet, acknowledged while the sender reads *)
Lemma hand_over ax ay d n m x y : joined ax ay x y -> listens x y -> (0 < length d <= 1380)%nat -> (1380 <= n)%nat ->
  exists x1 p q y' x', send_to d x = (Ret (zlen d), x1) /\ sent_to ay [p] x x1 /\ get_type p = Some PData /\ payload p = Some d /\ reachable x1 /\ at_ease y' /\
    run_op (ORecvFrom n) (arrive ax [p] y) = (Ret (VData d ax), y') /\ sent_to ax [q] y y' /\
    (forall more, run_op (ORecvFrom m) (arrive ay (q :: more) x1) = run_op (ORecvFrom m) (arrive ay more x')) /\ w_sent (wd x') = w_sent (wd x1) /\
    joined ax ay x' y' /\ listens x' y' /\ (listens y x -> listens y' x') /\ lead y' = lead y /\
    close x1 = (Fail Pend, x1) /\ (exists x2, (forall more, close (arrive ay (q :: more) x1) = close (arrive ay more x2)) /\ w_sent (wd x2) = w_sent (wd x1) /\ joined ax ay x2 y' /\ listens x2 y').
Proof.
  intros (HX & HY & AX & AY & I1 & I2) (HA & HD & HL) Hd Hn. pose proof HX as (RX & SX & PX & BX & WX & UX & MX & IX & TX).
  pose proof (reachable_ranges x RX) as NX. pose proof (r_seq _ NX) as QX. pose proof (r_lacked _ NX) as LX. pose proof (r_ack _ NX) as KX. pose proof HY as (RY & _). pose proof (reachable_ranges y RY) as NY. pose proof (r_seq _ NY) as QY.
  fold (lead x) in HL. set (a := s_last_acked (sk x) + lead x). assert (EA : s_seq_nr (sk x) = a mod 65536) by (unfold a, lead; lia).
  assert (CX : s_curr_window (sk x) = 0) by (pose proof (reachable_inflight x RX) as H; unfold inflight in H; rewrite WX in H; exact H).
  destruct (send_one d x Hd ltac:(rewrite SX; discriminate) UX WX CX QX ltac:(rewrite !u16_eq; unfold lead in HL; lia) TX) as (x1 & p & E1 & Ep & K1 & L1 & J1 & T1 & _).
  rewrite AX in L1. pose proof (op_reachable _ _ _ _ RX (run_send_to _ _ _ _ E1)) as RX1.
  assert (HP : chunkp (s_receiver_connection_id (sk y)) (a mod 65536) d p).
  { rewrite Ep, <- I1, <- EA. unfold data_packet. do 3 eexists. reflexivity. }
  destruct (chunkp_facts _ _ _ _ HP ltac:(lia) (r_rcid _ NY) Hd) as (F1 & F2 & F3 & F4 & F5 & F6).
  assert (HRd : ready a y). { unfold ready. rewrite EA in HA, HD. split; [|exact HD]. destruct HA as [HA|HA]; [left; rewrite HA; lia|right; exact HA]. }
  destruct (read_step ax n a d p y HY HP Hd Hn HRd) as (q & y' & E2 & L2 & Q2 & HY' & (D1 & D2 & D3 & D4 & D5 & _) & (HR1 & HR2)).
  set (xa := arrive ay [q] x1). assert (RXa : reachable xa) by now apply arrive_reachable.
  assert (HM : midway ay (s_seq_nr (sk y)) a [p] [q] 0 xa).
  { constructor; try (change (sk xa) with (sk x1); rewrite K1; unfold after_send; sproj; assumption).
    - apply reachable_ok. exact RXa.
    - intros i. unfold xa, arrive. cbn [wd]. sproj. rewrite T1. apply TX.
    - change (sk xa) with (sk x1). rewrite K1. unfold after_send. sproj. exact (conj (r_scid _ NX) (r_rcid _ NX)).
    - exact QY.
    - change (sk xa) with (sk x1). rewrite K1. unfold after_send. sproj. reflexivity.
    - change (sk xa) with (sk x1). rewrite K1. unfold after_send. sproj. cbn [total fold_right]. rewrite u32_small by (unfold packet_len, zlen; lia). lia.
    - unfold xa, arrive. cbn [wd]. sproj. rewrite J1, IX. reflexivity.
    - change (sk xa) with (sk x1). rewrite K1. unfold after_send. sproj. cbn [flying]. rewrite I2 in Q2. split; [split; [exact F4|lia]|]. split; [exact Q2|exact I].
    - change (sk xa) with (sk x1). rewrite K1. unfold after_send. sproj. exists (s_last_acked (sk x)). split; [symmetry; apply Z.mod_small; exact LX|]. unfold a. cbn [length]. lia. }
  destruct (ack_step_n m ay (s_seq_nr (sk y)) a p [] q [] 0 xa HM) as (x' & E3 & HM' & HK & L3 & A3 & _).
  pose proof HM' as [M1 M2 M3 M4 M5 M6 M7 M8 M9 M10 M12 M13 M14 M15].
  destruct HK as (G1 & G2 & G3 & G4 & G5 & G6 & G8 & G7). change (sk xa) with (sk x1) in *. rewrite K1 in G2, G3, G4, G5, G8, G7. unfold after_send in G2, G3, G4, G5, G8, G7. sproj_in G2. sproj_in G3. sproj_in G4. sproj_in G5. sproj_in G8. sproj_in G7.
  assert (ES : forall more, run_op (ORecvFrom m) (arrive ay (q :: more) x1) = run_op (ORecvFrom m) (arrive ay more x')).
  { intros more. cbn [run_op]. unfold bind. change (q :: more) with ([q] ++ more). rewrite arrive_app. fold xa.
    rewrite (recv_from_skip m (arrive ay more xa) ay (arrive ay more x')); [reflexivity|exact (m_pend _ _ _ _ _ _ _ HM)|exact (m_buf _ _ _ _ _ _ _ HM)| | |exact (proj1 (leads_call (map (fun r => RxDgram r ay) more) m) _ _ _ E3 I)|exact M2|exact M3|exact M1|].
    - change (sk (arrive ay more xa)) with (sk xa). rewrite (m_state _ _ _ _ _ _ _ HM). discriminate.
    - change (sk (arrive ay more xa)) with (sk xa). rewrite (m_state _ _ _ _ _ _ _ HM). discriminate.
    - unfold arrive at 1 2. cbn [wd]. sproj. rewrite (m_in _ _ _ _ _ _ _ HM), M13. reflexivity. }
  assert (EW : run_op (ORecvFrom m) x' = (Fail Pend, x')).
  { cbn [run_op]. unfold bind. rewrite (recv_from_first m x' M2 M3 M1), (recv_waits m x' M13 M4). reflexivity. }
  assert (RX' : reachable x'). { eapply rc_op; [exact RXa|unfold xa; rewrite ES, arrive_nil; exact EW|]. intros z. discriminate. }
  exists x1, p, q, y', x'. split; [exact E1|]. split; [exact L1|]. split; [exact F3|]. split; [exact F6|]. split; [exact RX1|]. split; [exact HY'|]. split; [exact E2|]. split; [exact L2|]. split; [exact ES|].
  destruct (flush_all ay (s_seq_nr (sk y)) [p] a [q] xa HM) as (x2 & EF & HM2 & HK2 & L4 & A4 & _). pose proof (op_reachable _ _ _ _ RXa (run_flush _ _ EF)) as RX2.
  pose proof HM2 as [P1 P2 P3 P4 P5 P6 P7 P8 P9 P10 P12 P13 P14 P15]. pose proof HK2 as (T2 & T3 & T4 & T5 & T6 & T7 & T9 & T8).
  change (sk xa) with (sk x1) in *. rewrite K1 in T3, T4, T5, T9. unfold after_send in T3, T4, T5, T9. sproj_in T3. sproj_in T4. sproj_in T5. sproj_in T9.
  split; [exact L3|]. split; [|split; [|split; [|split; [|split]]]].
  - split; [|split; [exact HY'|]]; [split; [exact RX'|]; repeat (split; [first [assumption|congruence]|]); exact M6|]. split; [exact M7|]. split; [congruence|]. split; congruence.
  - unfold listens. rewrite G4, A3, u16_eq. split; [|split; [rewrite EA; intros E; apply HR2; rewrite E; lia|lia]]. destruct HR1 as [H|H]; [left; rewrite H; lia|right; rewrite H; lia].
  - intros (B1 & B2 & B3). unfold listens. rewrite D4, D5, G5. split; [|split; assumption]. destruct G7 as [G7|G7]; rewrite G7; [exact B1|right; reflexivity].
  - unfold lead. now rewrite D4, D5.
  - assert (W1 : s_send_window (sk x1) = [p]) by (rewrite K1; reflexivity). assert (S1 : s_state (sk x1) = Connected) by (rewrite K1; exact SX). assert (M1' : 0 < s_max_retries (sk x1)) by (rewrite K1; exact MX).
    unfold close, bind at 1, get_sk at 1. rewrite S1. unfold bind at 1. rewrite flush_eq. cbn [loop]. unfold bind at 1, flush_body at 1, bind at 1, get_sk at 1. rewrite W1. cbn [is_nil].
    unfold bind at 1. rewrite recv_waits; [reflexivity|rewrite J1; exact IX|exact M1'].
  - exists x2. split; [|split; [exact L4|split]].
    + intros more. change (q :: more) with ([q] ++ more). rewrite arrive_app. fold xa. apply close_flushed; [exact (m_state _ _ _ _ _ _ _ HM)|exact (proj1 (leads_flush (map (fun r => RxDgram r ay) more)) _ _ _ EF I)|exact P1|exact P10].
    + split; [|split; [exact HY'|]]; [split; [exact RX2|]; repeat (split; [first [assumption|congruence]|]); exact P6|]. split; [exact P7|]. split; [congruence|]. split; congruence.
    + unfold listens. rewrite T5, A4, u16_eq. cbn [length]. split; [|split; [rewrite EA; intros E; apply HR2; rewrite E; lia|lia]]. destruct HR1 as [H|H]; [left; rewrite H; lia|right; rewrite H; lia].
Qed.

(** ** The whole run *)
Lemma handled s d src s1 s2 v : run_op (ORecvFrom 1500) s = (Ret (VData d src), s1) -> send_to d s1 = (Ret v, s2) -> handle_client s = drop_socket s2.
Proof.
  intros E1 E2. unfold handle_client. cbn [run_op] in E1. unfold bind in E1. destruct (recv_from 1500 s) as [[[d' src']|e] t] eqn:E; [|discriminate]. injection E1 as -> -> ->.
  unfold bind at 1, ignore_result. rewrite E2. reflexivity.
Qed.
Lemma echo_all ac al asv la l d n c0 s0 : untouched c0 -> untouched s0 -> 1 <= w_rand (wd s0) (S (w_rtick (wd s0))) mod 65536 <= 32768 -> (0 < length d <= 1380)%nat -> (1380 <= n)%nat ->
  echo_runs ac al asv la l d n c0 s0.
Proof.
  intros HC HS HR Hd Hn. destruct (handshake_leads ac al asv c0 s0 HC HS) as (c & s & HH & HJ & HL & HL' & EL & ER). specialize (HL' ltac:(lia)).
  destruct HH as (syns & rep & l0 & la0 & cw & E0 & S0 & LS & EA & SA & EC & SC). change (S (@length kind [])) with 1%nat in LS. destruct syns as [|syn [|? ?]]; [discriminate| |discriminate]. cbn [last map app] in *.
  change (connect (Ok (al :: l0)) (Ok tt)) with (connect (Ok (al :: l)) (Ok tt)) in *. change (accept (RxDgram syn ac) (Ok la0) (Ok tt)) with (accept (RxDgram syn ac) (Ok la) (Ok tt)) in EA.
  destruct (hand_over ac asv d 1500 n c s HJ HL Hd ltac:(lia)) as (c1 & data & dack & s1 & c2 & A1 & A2 & A3 & A4 & A5 & A6 & A7 & A8 & A9 & A10 & A11 & A12 & A13 & A14 & _ & _). specialize (A13 HL').
  assert (HJ2 : joined asv ac s1 c2) by (destruct A11 as (J1 & J2 & J3 & J4 & J5 & J6); repeat (split; [assumption|]); assumption).
  destruct (hand_over asv ac d n 1500 s1 c2 HJ2 A13 Hd Hn) as (s2 & echo & eack & c3 & s3 & B1 & B2 & B3 & B4 & B5 & B6 & B7 & B8 & _ & _ & _ & _ & _ & _ & B9 & s4 & B10 & B11 & B12 & B13).
  destruct (farewell_runs asv ac n s4 c3 B12 (proj1 B13)) as (s5 & c4 & fin & fack & s6 & F1 & F2 & F3 & F4 & F5 & F6 & F7 & F8 & _).
  assert (HE : forall more, echo_client al l d (arrive asv (rep :: more) c0) = (Ret tt, arrive asv more c1)).
  { intros more. unfold echo_client, bind at 1. change (rep :: more) with ([rep] ++ more). rewrite arrive_app. change (arrive asv [rep] c0) with (script [RxDgram rep asv] c0).
    pose proof (proj1 (leads_connect (map (fun r => RxDgram r asv) more) (Ok (al :: l)) (Ok tt)) _ _ _ EC I) as H. change (ext (map (fun r => RxDgram r asv) more)) with (arrive asv more) in H. rewrite H.
    unfold bind at 1. pose proof (proj1 (leads_send_to (map (fun r => RxDgram r asv) more) d) _ _ _ A1 I) as H'. change (ext (map (fun r => RxDgram r asv) more)) with (arrive asv more) in H'. rewrite H'. reflexivity. }
  assert (HV : forall more, handle_client (arrive ac (data :: more) s) = drop_socket (arrive ac more s2)).
  { intros more. change (data :: more) with ([data] ++ more). rewrite arrive_app.
    apply (handled _ d ac (arrive ac more s1) _ (zlen d)); [exact (proj1 (leads_run_op (map (fun r => RxDgram r ac) more) (ORecvFrom 1500)) _ _ _ A7 I)|exact (proj1 (leads_send_to (map (fun r => RxDgram r ac) more) d) _ _ _ B1 I)]. }
  assert (HQ : forall more, run_op (ORecvFrom n) (arrive asv (dack :: echo :: more) c1) = (Ret (VData d asv), arrive asv more c3)).
  { intros more. rewrite A9. change (echo :: more) with ([echo] ++ more). rewrite arrive_app. exact (proj1 (leads_run_op (map (fun r => RxDgram r asv) more) (ORecvFrom n)) _ _ _ B7 I). }
  assert (HN : d <> []) by (destruct d; [cbn in Hd; lia|discriminate]).
  assert (EF1 : close s4 = (Fail Pend, s6)). { cbn [run_op] in F1. unfold bind in F1. destruct (close s4) as [[[]|e] t]; [discriminate|]. now injection F1 as -> <-. }
  assert (EF5 : close (arrive ac [fack] s4) = (Ret tt, s5)). { cbn [run_op] in F5. unfold bind in F5. destruct (close (arrive ac [fack] s4)) as [[[]|e] t]; [|discriminate]. now injection F5 as <-. }
  exists syn, data, eack, fack, rep, dack, echo, fin, s, c1. split; [exact A3|]. split; [exact A4|]. split; [exact B3|]. split; [exact B4|]. split.
  { exists cw. split; [|exact S0]. unfold echo_client, bind at 1. change (connect (Ok (al :: l)) (Ok tt) (script [] c0) = (Fail Pend, cw)) in E0. replace (script [] c0) with c0 in E0 by (destruct c0 as [k w]; unfold script; cbn [sk wd]; destruct HC as (_ & HI & _); cbn [wd] in HI; destruct w; cbn in *; subst; reflexivity). rewrite E0. reflexivity. }
  split; [exact EA|]. split; [exact SA|]. split.
  { exists s. split; [|unfold sent_to; cbn [map]; now rewrite app_nil_r]. unfold handle_client. destruct HJ as (_ & HY & _). pose proof (read_waits 1500 s HY) as H. cbn [run_op] in H. unfold bind in H. destruct (recv_from 1500 s) as [[[d' src']|e] t]; [discriminate|]. injection H as -> ->. reflexivity. }
  split; [exact HE|]. split; [unfold sent_to in *; rewrite A2, SC, <- app_assoc; reflexivity|].
  assert (W2 : sent_to ac [dack; echo] s s2) by (unfold sent_to in *; rewrite B2, A8, <- app_assoc; reflexivity).
  assert (W3 : sent_to asv [eack] c1 c3) by (unfold sent_to in *; rewrite B8, A10; reflexivity).
  split. { exists s2. split; [|exact W2]. rewrite HV, arrive_nil. unfold drop_socket, ignore_result. rewrite B9. reflexivity. }
  destruct A11 as (J1 & _).
  split. { exists c2. split; [|unfold sent_to; cbn [map]; rewrite app_nil_r; exact A10]. apply shows_end. rewrite A9, arrive_nil. now apply read_waits. }
  split. { exists c3. split; [|exact W3]. rewrite <- (app_nil_r d) at 1. eapply shows_more; [exact (HQ [])|exact HN|]. rewrite arrive_nil. apply shows_end. now apply read_waits. }
  split. { exists s6. rewrite HV. split; [unfold drop_socket, ignore_result; rewrite B10, arrive_nil, EF1; reflexivity|]. unfold sent_to in *. rewrite F2, B11, W2, <- app_assoc. reflexivity. }
  split. { exists c4. split; [|split; [|exact F8]]; [|unfold sent_to in *; rewrite F4, W3, <- app_assoc; reflexivity]. rewrite <- (app_nil_r d) at 1. eapply prints_more; [exact (HQ [fin])|exact HN|]. eapply prints_end. exact F3. }
  exists s5. rewrite HV. split; [unfold drop_socket, ignore_result; rewrite B10, EF5; reflexivity|]. split; [|exact F7]. unfold sent_to in *. rewrite F6, B11, W2, <- app_assoc. reflexivity.
Qed.

(** ** A server that starts in the upper half of the sequence numbers *)
Lemma send_held d s : (0 < length d <= 1380)%nat -> s_state (sk s) <> Closed -> s_unsent_queue (sk s) = [] -> s_curr_window (sk s) = 0 ->
  0 <= s_seq_nr (sk s) < 65536 -> u16 (s_last_acked (sk s) - s_seq_nr (sk s)) < u16 (s_seq_nr (sk s) - s_last_acked (sk s)) ->
  exists s', send_to d s = (Ret (zlen d), s') /\ w_sent (wd s') = w_sent (wd s) /\ w_in (wd s') = w_in (wd s) /\ s_state (sk s') = s_state (sk s) /\ s_max_retries (sk s') = s_max_retries (sk s) /\ s_send_window (sk s') <> [].
Proof.
  intros Hd HC HU H0 HQ HA. unfold send_to, bind at 1, get_sk at 1. destruct (sstate_eqb (s_state (sk s)) Closed) eqn:E; [now apply state_eqb_true in E|].
  unfold bind at 1, upd_sk at 1. change CHUNK with 1380%nat. rewrite one_chunk by exact Hd. cbn [fold_left]. unfold queue_chunk. rewrite HU, chunk_packet_wire. cbn [app].
  set (q := wire _ _ _). set (t := mkSt _ _). unfold send, bind at 1, bind at 1, get_sk at 1. change (s_unsent_queue (sk t)) with [q]. cbn [length].
  change (loop 2) with (fun (body : unit -> M (unit + unit)) x => r <- body x ;; match r with inl y => loop 1 body y | inr a => ret a end). cbv beta.
  unfold bind at 1, bind at 1, get_sk at 1. change (s_unsent_queue (sk t)) with [q]. unfold bind at 1, upd_sk at 1. set (t0 := mkSt _ _). unfold bind at 1. rewrite send_packet_split.
  unfold bind at 1. rewrite gate_open by (change (s_curr_window (sk (ticked t0))) with (s_curr_window (sk s)); rewrite H0; unfold limit; lia).
  assert (HQs : seq_nr q = s_seq_nr (sk s)) by (unfold q; rewrite seq_wire; cbn [h_seq]; apply u16_small; lia).
  rewrite transmit_skips by (unfold ahead; rewrite HQs; exact HA). set (t1 := ticked t0).
  assert (HL : packet_len q = 20 + zlen d) by (unfold packet_len, zlen, q; rewrite wire_length; change (wire_exts []) with (@nil byte); cbn [length]; lia).
  cbn [ret]. unfold bind at 1, get_sk at 1. change (s_curr_window (sk t1)) with (s_curr_window (sk s)). rewrite H0, Z.add_0_l.
  assert (HV : 0 <= packet_len q < 4294967296) by (rewrite HL; unfold zlen; lia). rewrite (u32_small (packet_len q)) by lia.
  unfold bind at 1. rewrite ck_u32_small by exact HV. unfold bind at 1, upd_sk at 1. cbn [ret]. cbn [loop]. unfold bind at 1, bind at 1, get_sk at 1.
  change (s_unsent_queue (sk (mkSt _ _))) with (@nil packet) at 1. cbn [ret].
  eexists. split; [reflexivity|]. do 4 (split; [reflexivity|]). intros HE. apply (f_equal (@length packet)) in HE. cbn in HE. rewrite app_length in HE. cbn in HE. lia.
Qed.
Lemma close_held s : w_in (wd s) = [] -> s_state (sk s) = Connected -> 0 < s_max_retries (sk s) -> s_send_window (sk s) <> [] -> close s = (Fail Pend, s).
Proof.
  intros HI S1 HM HW. unfold close, bind at 1, get_sk at 1. rewrite S1. unfold bind at 1. rewrite flush_eq. cbn [loop]. unfold bind at 1, flush_body at 1, bind at 1, get_sk at 1.
  destruct (s_send_window (sk s)) as [|p w] eqn:EW; [congruence|]. cbn [is_nil]. unfold bind at 1. rewrite (recv_waits BUF_SIZE s HI HM). reflexivity.
Qed.
Lemma echo_held ac al asv la l d c0 s0 : untouched c0 -> untouched s0 -> 32768 < w_rand (wd s0) (S (w_rtick (wd s0))) mod 65536 -> (0 < length d <= 1380)%nat ->
  echo_waits ac al asv la l d c0 s0.
Proof.
  intros HC HS HR Hd. destruct (handshake_runs ac al asv c0 s0 HC HS) as (c & s & HH & HJ & HL & EL & EQ & _).
  destruct HH as (syns & rep & l0 & la0 & cw & E0 & S0 & LS & EA & SA & EC & SC). change (S (@length kind [])) with 1%nat in LS. destruct syns as [|syn [|? ?]]; [discriminate| |discriminate]. cbn [last map app] in *.
  change (connect (Ok (al :: l0)) (Ok tt)) with (connect (Ok (al :: l)) (Ok tt)) in *. change (accept (RxDgram syn ac) (Ok la0) (Ok tt)) with (accept (RxDgram syn ac) (Ok la) (Ok tt)) in EA.
  destruct (hand_over ac asv d 1500 1500 c s HJ HL Hd ltac:(lia)) as (c1 & data & dack & s1 & c2 & A1 & A2 & A3 & A4 & A5 & A6 & A7 & A8 & A9 & A10 & A11 & A12 & _ & A14 & _ & _).
  pose proof A6 as (RY & SY & PY & BY & WY & UY & MY & IY & TY).
  assert (CY : s_curr_window (sk s1) = 0) by (pose proof (reachable_inflight s1 RY) as E; unfold inflight in E; rewrite WY in E; exact E). pose proof (r_seq _ (reachable_ranges s1 RY)) as QY.
  assert (HQ' : u16 (s_last_acked (sk s1) - s_seq_nr (sk s1)) < u16 (s_seq_nr (sk s1) - s_last_acked (sk s1))) by (unfold lead in A14; rewrite EL, EQ in A14; rewrite !u16_eq; lia).
  destruct (send_held d s1 Hd ltac:(rewrite SY; discriminate) UY CY QY HQ') as (s2 & B1 & B2 & B3 & B4 & B5 & B6).
  exists syn, data, rep, dack, s, c1. split; [exact A4|]. split.
  { exists cw. split; [|exact S0]. unfold echo_client, bind at 1. change (connect (Ok (al :: l)) (Ok tt) (script [] c0) = (Fail Pend, cw)) in E0. replace (script [] c0) with c0 in E0 by (destruct c0 as [k w]; unfold script; cbn [sk wd]; destruct HC as (_ & HI & _); cbn [wd] in HI; destruct w; cbn in *; subst; reflexivity). rewrite E0. reflexivity. }
  split; [exact EA|]. split; [exact SA|]. split.
  { unfold echo_client, bind at 1. change (arrive asv [rep] c0) with (script [RxDgram rep asv] c0). rewrite EC. unfold bind. rewrite A1. reflexivity. }
  split; [unfold sent_to in *; rewrite A2, SC, <- app_assoc; reflexivity|]. exists s2. split; [|unfold sent_to in *; rewrite B2; exact A8].
  rewrite (handled _ d ac s1 s2 (zlen d) A7 B1). unfold drop_socket, ignore_result. rewrite close_held; [reflexivity|now rewrite B3|now rewrite B4|now rewrite B5|exact B6].
Qed.

(** ** A server whose first number is 0 *)
Lemma recv_swallowed n p src s : w_in (wd s) = [RxDgram p src] -> s_state (sk s) = Connected -> s_pending_data (sk s) = [] -> s_incoming_buffer (sk s) = [] -> 0 < s_max_retries (sk s) -> all_sent s ->
  packet_try_from (firstn 1520 p) = Some (Ok p) -> get_type p = Some PData -> own_id (sk s) p ->
  (s_ack_nr (sk s) = (seq_nr p - 1) mod 65536 \/ s_ack_nr (sk s) = seq_nr p) -> s_last_dropped (sk s) = seq_nr p -> ranges (sk s) ->
  exists s' r, recv n s = (Ret ([], src), s') /\ state_reply r (s_sender_connection_id (sk s)) (s_seq_nr (sk s)) (seq_nr p) /\
    w_sent (wd s') = w_sent (wd s) ++ [(src, r)] /\ w_in (wd s') = [] /\ w_send (wd s') = w_send (wd s) /\
    sk s' = ss_ack_nr (seq_nr p) (ss_their_delay (abs_diff (clock_now s) (timestamp p)) (ss_remote_wnd_size (wnd_size p) (sk s))).
Proof.
  intros EW ES EP EB HM HX HV HT HO HA HL HR. rewrite (recv_first n p src [] s EW HM).
  change 1520%nat with (BUF_SIZE + HEADER_SIZE)%nat in HV. rewrite (process_packet _ _ _ _ p PData _ HV HT). unfold bind at 1.
  rewrite (handle_own _ p src PData (rx_state s) HT (or_introl HO)). pose proof (seq_nr_range p) as HQ.
  assert (EK : sk (noted p (rx_state s)) = ss_their_delay (abs_diff (clock_now s) (timestamp p)) (ss_remote_wnd_size (wnd_size p) (ss_ack_nr (seq_nr p) (sk s)))).
  { unfold noted. cbn [sk rx_state]. do 2 f_equal. unfold acked_sk. rewrite u16_eq. destruct HA as [HA|HA]; rewrite HA.
    - replace (_ =? 1) with true by lia. reflexivity.
    - replace (_ =? 1) with false by lia. rewrite <- HA. destruct (sk s); reflexivity. }
  remember (noted p (rx_state s)) as t eqn:Et. assert (Ewd : wd t = wd (ticked (rx_state s))) by (rewrite Et; reflexivity). clear Et.
  assert (K1 : s_ack_nr (sk t) = seq_nr p) by (rewrite EK; reflexivity). assert (K2 : s_state (sk t) = Connected) by (rewrite EK; exact ES).
  assert (K3 : s_incoming_buffer (sk t) = []) by (rewrite EK; exact EB). assert (K4 : s_pending_data (sk t) = []) by (rewrite EK; exact EP).
  unfold dispatch, bind at 1, get_sk at 1. rewrite K2. rewrite data_reply_full by (right; right; exact K3).
  assert (EBm : reply_bitmap p (sk t) = []) by (unfold reply_bitmap; rewrite K1, Z.sub_diag; reflexivity). rewrite EBm, K2, K1. cbn [sstate_eqb].
  unfold answer, bind at 1, bind at 1. rewrite set_wnd_wire. cbn [h_type h_cid h_ts h_tsd h_wnd h_seq h_ack].
  match goal with |- context [udp_send src ?q ?t] => set (r := q); set (t1 := t) end.
  assert (EX : tx_ok t1 = true) by (apply all_sent_ok; unfold all_sent, t1; cbn [ticked wd]; sproj; rewrite Ewd; exact HX).
  rewrite (send_ok_eq src r t1 EX). cbn [try_ ret]. unfold bind at 1, get_sk at 1. change (sk (tx_state src r t1)) with (sk t).
  assert (K5 : s_last_dropped (sk t) = s_last_dropped (sk s)) by (rewrite EK; reflexivity). rewrite K5.
  replace (ptype_eqb PData PData && (0 <? u16 (seq_nr p - s_last_dropped (sk s)))) with false by (rewrite u16_eq, HL; cbn [ptype_eqb andb]; lia).
  unfold bind at 1, ret at 1. unfold bind at 1. rewrite (flush_empty n (tx_state src r t1) K4 K3). cbn [ret].
  eexists. exists r. split; [reflexivity|]. split.
  { exists (clock_now t), (u32 (abs_diff (clock_now t) (timestamp p))). unfold r. rewrite EK. reflexivity. }
  unfold tx_state. rewrite EX. cbn [wd]. sproj. change (wd t1) with (sw_tick (S (w_tick (wd t))) (wd t)). sproj. rewrite Ewd. unfold rx_state, ticked. sproj. rewrite EW.
  repeat (split; [reflexivity|]). change (sk t1) with (sk t). rewrite EK. destruct (sk s); reflexivity.
Qed.
Lemma zero_lost ac al asv c0 s0 d n : untouched c0 -> untouched s0 -> w_rand (wd s0) (S (w_rtick (wd s0))) mod 65536 = 0 -> (0 < length d <= 1380)%nat ->
  exists c s s1 p q c1, handshake ac al asv c0 s0 c s /\ joined ac asv c s /\ run_op (OSendTo d) s = (Ret (VLen (Z.of_nat (length d))), s1) /\ sent_to ac [p] s s1 /\ payload p = Some d /\
    run_op (ORecvFrom n) (arrive asv [p] c) = (Fail Pend, c1) /\ sent_to asv [q] c c1 /\ get_type q = Some PState /\ ack_nr q = seq_nr p /\ at_ease c1.
Proof.
  intros HC HS HR Hd. destruct (opening_runs ac al asv [] c0 s0 HC HS) as (c & s & HH & HJ & HL & EL & EQ & _ & EK & _ & _ & _ & _ & _ & _ & DX); [constructor|cbn; lia|].
  pose proof HJ as ((RX & SX & PX & BX & WX & UX & MX & IX & TX) & (RY & SY & PY & BY & WY & UY & MY & IY & TY) & AX & AY & I1 & I2).
  pose proof (reachable_ranges s RY) as NY. pose proof (reachable_ranges c RX) as NX. rewrite HR in EQ.
  assert (CY : s_curr_window (sk s) = 0) by (pose proof (reachable_inflight s RY) as E; unfold inflight in E; rewrite WY in E; exact E).
  destruct (send_one d s Hd ltac:(rewrite SY; discriminate) UY WY CY (r_seq _ NY) ltac:(rewrite EQ, EL; reflexivity) TY) as (s1 & p & E1 & Ep & K1 & L1 & J1 & T1 & _). rewrite AY in L1.
  assert (HP : chunkp (s_receiver_connection_id (sk c)) 0 d p) by (rewrite Ep, <- I2, <- EQ; unfold data_packet; do 3 eexists; reflexivity).
  destruct (chunkp_facts _ _ _ _ HP ltac:(lia) (r_rcid _ NX) Hd) as (F1 & F2 & F3 & F4 & F5 & F6).
  set (ca := arrive asv [p] c).
  destruct (recv_swallowed n p asv ca) as (c1 & q & E2 & (ts & tsd & Er) & L2 & J2 & T2 & K2); [unfold ca, arrive; cbn [wd]; sproj; rewrite IX; reflexivity|exact SX|exact PX|exact BX|exact MX|exact TX|exact F2|exact F3|right; exact F5
    |right; change (sk ca) with (sk c); rewrite EK, EQ, F4; reflexivity|change (sk ca) with (sk c); rewrite DX, F4; reflexivity|exact NX|].
  change (sk ca) with (sk c) in *.
  assert (KX : s_state (sk c1) = Connected /\ s_pending_data (sk c1) = [] /\ s_incoming_buffer (sk c1) = [] /\ s_send_window (sk c1) = [] /\ s_unsent_queue (sk c1) = [] /\ 0 < s_max_retries (sk c1)) by (rewrite K2; sproj; auto 10).
  destruct KX as (X1 & X2 & X3 & X4 & X5 & X6).
  assert (E3 : run_op (ORecvFrom n) ca = (Fail Pend, c1)).
  { cbn [run_op]. unfold bind. rewrite (recv_from_skip n ca asv c1); [|exact PX|exact BX|change (sk ca) with (sk c); rewrite SX; discriminate|change (sk ca) with (sk c); rewrite SX; discriminate|exact E2|exact X2|exact X3|exact X1|].
    - rewrite (recv_from_first n c1 X2 X3 X1), (recv_waits n c1 J2 X6). reflexivity.
    - rewrite J2. unfold ca, arrive. cbn [wd]. sproj. rewrite IX. reflexivity. }
  exists c, s, s1, p, q, c1. split; [exact HH|]. split; [exact HJ|]. split; [apply run_send_to; exact E1|]. split; [exact L1|]. split; [exact F6|]. split; [exact E3|]. split; [exact L2|].
  split; [rewrite Er, get_type_wire; reflexivity|]. split; [rewrite Er, ack_wire; cbn [h_ack]; apply u16_small; rewrite F4; lia|].
  split; [eapply rc_op; [apply (arrive_reachable asv [p] c RX)|exact E3|intros z; discriminate]|]. repeat (split; [assumption|]). intros i. rewrite T2. apply TX.
Qed.
