(** Proofs for C88. *)
From Verif Require Export SpecBurst LossyProofs.
Require Import ZifyBool ZifyNat ZifyN.
Local Open Scope Z_scope.
Ltac Zify.zify_post_hook ::= Z.div_mod_to_equations.

(** ** Sending with room in the window *)
Definition after_push (p : packet) (k : socket) : socket :=
  ss_send_window (s_send_window k ++ [p]) (ss_curr_window (s_curr_window k + packet_len p) (ss_unsent_queue [] (ss_seq_nr (u16 (s_seq_nr k + 1)) k))).
Lemma send_open d s : (0 < length d <= 1380)%nat -> s_state (sk s) <> Closed -> s_unsent_queue (sk s) = [] -> 0 <= s_curr_window (sk s) < 2800 ->
  0 <= s_seq_nr (sk s) < 65536 -> u16 (s_seq_nr (sk s) - s_last_acked (sk s)) <= u16 (s_last_acked (sk s) - s_seq_nr (sk s)) -> all_sent s ->
  exists s' p, send_to d s = (Ret (zlen d), s') /\ p = data_packet (sk s) (clock_now (ticked s)) d /\ sk s' = after_push p (sk s) /\
    w_sent (wd s') = w_sent (wd s) ++ [(s_connected_to (sk s), p)] /\ w_in (wd s') = w_in (wd s) /\ w_send (wd s') = w_send (wd s) /\ w_chk (wd s') = w_chk (wd s).
Proof.
  intros Hd HC HU H0 HQ HA HX. unfold send_to, bind at 1, get_sk at 1. destruct (sstate_eqb (s_state (sk s)) Closed) eqn:E; [now apply state_eqb_true in E|].
  unfold bind at 1, upd_sk at 1. change CHUNK with 1380%nat. rewrite one_chunk by exact Hd. cbn [fold_left]. unfold queue_chunk. rewrite HU, chunk_packet_wire. cbn [app].
  set (q := wire _ _ _). set (t := mkSt _ _). unfold send, bind at 1, bind at 1, get_sk at 1. change (s_unsent_queue (sk t)) with [q]. cbn [length].
  change (loop 2) with (fun (body : unit -> M (unit + unit)) x => r <- body x ;; match r with inl y => loop 1 body y | inr a => ret a end). cbv beta.
  unfold bind at 1, bind at 1, get_sk at 1. change (s_unsent_queue (sk t)) with [q]. unfold bind at 1, upd_sk at 1. set (t0 := mkSt _ _). unfold bind at 1. rewrite send_packet_split.
  unfold bind at 1. rewrite gate_open by (change (s_curr_window (sk (ticked t0))) with (s_curr_window (sk s)); unfold limit; change (MIN_CWND * MSS) with 2800; lia).
  assert (HQs : seq_nr q = s_seq_nr (sk s)) by (unfold q; rewrite seq_wire; cbn [h_seq]; apply u16_small; lia).
  rewrite transmit_eq. 2:{ unfold ahead. rewrite HQs. change (s_last_acked (sk (ticked t0))) with (s_last_acked (sk s)). lia. } 2:{ apply all_sent_ok. exact HX. }
  set (p := restamped q (ticked t0)). assert (Hp : p = data_packet (sk s) (clock_now (ticked s)) d) by (unfold p, restamped, q; rewrite set_ts_wire, set_tsd_wire; unfold data_packet; cbn [h_type h_cid h_ts h_tsd h_wnd h_seq h_ack]; reflexivity).
  assert (HL : packet_len p = 20 + zlen d) by (rewrite Hp; unfold packet_len, zlen, data_packet; rewrite wire_length; change (wire_exts []) with (@nil byte); cbn [length]; lia).
  set (t1 := tx_state _ p _). cbn [ret]. unfold bind at 1, get_sk at 1. change (s_curr_window (sk t1)) with (s_curr_window (sk s)).
  assert (HV : 0 <= packet_len p < 65536) by (rewrite HL; unfold zlen; lia). rewrite (u32_small (packet_len p)) by lia.
  unfold bind at 1. rewrite ck_u32_small by lia. unfold bind at 1, upd_sk at 1. cbn [ret]. cbn [loop]. unfold bind at 1, bind at 1, get_sk at 1.
  change (s_unsent_queue (sk (mkSt _ _))) with (@nil packet) at 1. cbn [ret].
  exists (mkSt (ss_send_window (s_send_window (sk t1) ++ [p]) (ss_curr_window (s_curr_window (sk s) + packet_len p) (sk t1))) (wd t1)), p. split; [reflexivity|]. split; [exact Hp|].
  assert (HX1 : tx_ok (ticked (ticked t0)) = true) by (apply all_sent_ok; exact HX).
  split; [|unfold t1, tx_state; rewrite HX1; repeat split].
  change (s_send_window (sk t1)) with (s_send_window (sk s)). unfold after_push, t1, tx_state, t0, t. cbn [sk ticked]. reflexivity.
Qed.

(** ** What is in flight *)
Lemma laid_app cid cs : forall b ps c p, laid cid b cs ps -> (0 < length c <= 1380)%nat -> chunkp cid ((b + Z.of_nat (length cs)) mod 65536) c p -> laid cid b (cs ++ [c]) (ps ++ [p]).
Proof.
  induction cs as [|c0 cs IH]; intros b [|p0 ps] c p H Hc Hp; cbn in H; try contradiction; cbn [app laid length] in *.
  - replace (b + Z.of_nat 0) with b in Hp by lia. auto.
  - destruct H as (H1 & H2 & H3). split; [exact H1|]. split; [exact H2|]. apply IH; [exact H3|exact Hc|]. replace (b + 1 + Z.of_nat (length cs)) with (b + Z.of_nat (S (length cs))) by lia. exact Hp.
Qed.
Lemma laid_total cid cs : forall b ps, 0 <= cid < 65536 -> laid cid b cs ps -> total ps = fold_right (fun d n => 20 + Z.of_nat (length d) + n) 0 cs /\ 0 <= total ps <= 1400 * Z.of_nat (length cs) /\ Forall long ps.
Proof.
  induction cs as [|c cs IH]; intros b [|p ps] HC H; cbn [laid] in H; try contradiction; [cbn; split; [reflexivity|split; [lia|constructor]]|]. destruct H as (H1 & H2 & H3). destruct (IH _ _ HC H3) as (I1 & I2 & I3).
  destruct (chunkp_facts _ _ _ _ H2 ltac:(apply Z.mod_pos_bound; lia) HC H1) as (F1 & _). cbn [total fold_right length]. fold (total ps). rewrite u32_small by (unfold packet_len, zlen; lia). rewrite <- I1. unfold packet_len, zlen. rewrite F1.
  split; [lia|]. split; [lia|]. constructor; [unfold long; lia|exact I3].
Qed.
(** The packets [cs], numbered from [a], are in flight. *)
Record flight (ay : addr) (a : Z) (cs : list (list byte)) (s : st) : Prop := mkFlight {
  f_state : s_state (sk s) = Connected; f_pend : s_pending_data (sk s) = []; f_buf : s_incoming_buffer (sk s) = []; f_unsent : s_unsent_queue (sk s) = [];
  f_to : s_connected_to (sk s) = ay; f_sends : all_sent s; f_in : w_in (wd s) = []; f_ok : ok s; f_laid : laid (s_sender_connection_id (sk s)) a cs (s_send_window (sk s));
  f_cur : s_curr_window (sk s) = total (s_send_window (sk s)); f_seq : s_seq_nr (sk s) = (a + Z.of_nat (length cs)) mod 65536;
  f_ids : 0 <= s_sender_connection_id (sk s) < 65536 /\ 0 <= s_receiver_connection_id (sk s) < 65536;
  f_gap : exists la, s_last_acked (sk s) = la mod 65536 /\ la < a /\ a + Z.of_nat (length cs) - 1 - la <= 32768 }.
(** What sending leaves alone. *)
Definition steady (k k' : socket) : Prop := s_sender_connection_id k' = s_sender_connection_id k /\ s_receiver_connection_id k' = s_receiver_connection_id k /\ s_last_dropped k' = s_last_dropped k /\
  s_max_retries k' = s_max_retries k /\ s_ack_nr k' = s_ack_nr k /\ s_congestion_timeout k' = s_congestion_timeout k /\ s_last_acked k' = s_last_acked k.
Lemma push_runs ay a cs d s : reachable s -> flight ay a cs s -> (0 < length d <= 1380)%nat -> total (s_send_window (sk s)) < 2800 ->
  (exists la, s_last_acked (sk s) = la mod 65536 /\ la < a /\ a + Z.of_nat (length cs) - la <= 32768) ->
  exists s' p, run_op (OSendTo d) s = (Ret (VLen (Z.of_nat (length d))), s') /\ sent_to ay [p] s s' /\ reachable s' /\ flight ay a (cs ++ [d]) s' /\ steady (sk s) (sk s') /\ s_send_window (sk s') = s_send_window (sk s) ++ [p].
Proof.
  intros HR [F1 F2 F3 F4 F5 F6 F7 F8 F9 F10 F11 F12 _] Hd HT (la & G1 & G2 & G3).
  destruct (laid_total _ _ _ _ (proj1 F12) F9) as (_ & HT0 & _). pose proof (Z.mod_pos_bound (a + Z.of_nat (length cs)) 65536 ltac:(lia)) as HB.
  destruct (send_open d s Hd ltac:(rewrite F1; discriminate) F4 ltac:(rewrite F10; lia) ltac:(rewrite F11; lia) ltac:(rewrite F11, G1, !u16_eq; lia) F6) as (s' & p & E & Ep & K & L & J & T & _).
  assert (HP : chunkp (s_sender_connection_id (sk s)) ((a + Z.of_nat (length cs)) mod 65536) d p) by (rewrite Ep; unfold data_packet; rewrite F11; do 3 eexists; reflexivity). clear Ep.
  pose proof (run_send_to _ _ _ _ E) as O. pose proof (op_reachable _ _ _ _ HR O) as HR'. rewrite F5 in L.
  exists s', p. split; [exact O|]. split; [exact L|]. split; [exact HR'|]. destruct (chunkp_facts _ _ _ _ HP HB (proj1 F12) Hd) as (L1 & _).
  assert (HL : u32 (packet_len p) = packet_len p) by (apply u32_small; unfold packet_len, zlen; lia).
  split; [|split; [rewrite K; unfold after_push, steady; sproj; auto 10|rewrite K; reflexivity]].
  pose proof (reachable_ok _ HR') as HO. constructor; try exact HO; try (rewrite K; unfold after_push; sproj); try assumption; try reflexivity.
  - intros i. rewrite T. apply F6.
  - rewrite J. exact F7.
  - now apply laid_app.
  - rewrite total_app, F10, HL. reflexivity.
  - rewrite F11, app_length, u16_eq. cbn [length]. lia.
  - exists la. rewrite app_length. cbn [length]. repeat split; [exact G1|exact G2|lia].
Qed.

(** ** An acknowledgement somewhere in the window *)
Lemma laid_split cid cs : forall a c ds w, laid cid a (cs ++ c :: ds) w -> exists l1 p l2, w = l1 ++ p :: l2 /\ laid cid a cs l1 /\ chunkp cid ((a + Z.of_nat (length cs)) mod 65536) c p /\ (0 < length c <= 1380)%nat /\ laid cid (a + Z.of_nat (length cs) + 1) ds l2.
Proof.
  induction cs as [|c0 cs IH]; intros a c ds [|p w] H; cbn [app laid] in H; try contradiction; destruct H as (H1 & H2 & H3).
  - exists [], p, w. cbn [length]. replace (a + Z.of_nat 0) with a by lia. cbn. auto.
  - destruct (IH _ _ _ _ H3) as (l1 & q & l2 & -> & L1 & Q & Hc & L2). exists (p :: l1), q, l2. cbn [length]. replace (a + Z.of_nat (S (length cs))) with (a + 1 + Z.of_nat (length cs)) by lia. cbn. auto.
Qed.
Lemma laid_sum cid cs : forall b ps, 0 <= cid < 65536 -> laid cid b cs ps -> sum_len ps = total ps.
Proof.
  induction cs as [|c cs IH]; intros b [|p ps] HC H; cbn [laid] in H; try contradiction; [reflexivity|]. destruct H as (H1 & H2 & H3).
  destruct (chunkp_facts _ _ _ _ H2 ltac:(apply Z.mod_pos_bound; lia) HC H1) as (F1 & _). rewrite sum_len_cons. cbn [total fold_right]. fold (total ps). rewrite (IH _ _ HC H3). rewrite u32_small by (unfold packet_len, zlen; lia). reflexivity.
Qed.
Lemma laid_numbers cid cs : forall a ps sq, 0 <= cid < 65536 -> laid cid a cs ps -> (forall i, a <= i < a + Z.of_nat (length cs) -> i mod 65536 <> sq) -> Forall (fun p => seq_nr p <> sq) ps.
Proof.
  induction cs as [|c cs IH]; intros a [|p ps] sq HC H HN; cbn [laid] in H; try contradiction; constructor; destruct H as (H1 & H2 & H3).
  - destruct (chunkp_facts _ _ _ _ H2 ltac:(apply Z.mod_pos_bound; lia) HC H1) as (_ & _ & _ & F4 & _). rewrite F4. apply HN. cbn [length]. lia.
  - apply (IH _ _ _ HC H3). intros i Hi. apply HN. cbn [length]. lia.
Qed.
Lemma state_at rec r l1 p l2 t : extensions r = Some [] -> ok t -> s_send_window (sk t) = l1 ++ p :: l2 -> s_curr_window (sk t) = sum_len (l1 ++ p :: l2) -> sum_len (l1 ++ p :: l2) < 4294960000 ->
  seq_nr p = ack_nr r -> Forall (fun q => seq_nr q <> ack_nr r) l1 -> s_last_acked (sk t) <> ack_nr r ->
  exists s' k1, handle_state_packet rec r t = (Ret tt, s') /\ wd s' = wd (ticked (ticked t)) /\
    tuned (ss_duplicate_ack_count 1 (ss_last_acked_timestamp (clock_now t) (ss_last_acked (ack_nr r) (sk t)))) k1 /\ sk s' = ss_curr_window (sum_len l2) (ss_send_window l2 k1) /\ 500 <= s_congestion_timeout k1 <= 60000.
Proof.
  intros HE HK EW EC HL EQ HF HA. unfold handle_state_packet, bind at 1. rewrite note_fresh by congruence.
  remember (mkSt (ss_duplicate_ack_count 1 (ss_last_acked_timestamp (clock_now t) (ss_last_acked (ack_nr r) (sk t)))) (wd (ticked t))) as t1 eqn:E1.
  assert (HK1 : ok t1) by (rewrite E1; exact HK). assert (W1 : wd (ticked t1) = wd (ticked (ticked t))) by (rewrite E1; reflexivity).
  assert (S1 : sk t1 = ss_duplicate_ack_count 1 (ss_last_acked_timestamp (clock_now t) (ss_last_acked (ack_nr r) (sk t)))) by (rewrite E1; reflexivity). clear E1. rewrite <- S1, <- W1.
  assert (Q1 : s_send_window (sk t1) = l1 ++ p :: l2) by (rewrite S1; exact EW). assert (Q2 : s_curr_window (sk t1) = sum_len (l1 ++ p :: l2)) by (rewrite S1; exact EC).
  assert (Q7 : s_duplicate_ack_count (sk t1) = 1) by (rewrite S1; reflexivity). assert (Q8 : s_last_acked (sk t1) = ack_nr r) by (rewrite S1; reflexivity). clear S1 W1 HK EW EC HA.
  pose proof (sum_len_nonneg (l1 ++ p :: l2)) as H0.
  assert (EPos : position (fun q => ack_nr r =? seq_nr q) (l1 ++ p :: l2) = Some (length l1)).
  { apply position_app_hit; [|lia]. apply forallb_forall. intros q Hq. rewrite Forall_forall in HF. specialize (HF q Hq). lia. }
  assert (EPos' : position (fun q => seq_nr q =? ack_nr r) (l1 ++ p :: l2) = Some (length l1)).
  { apply position_app_hit; [|lia]. apply forallb_forall. intros q Hq. rewrite Forall_forall in HF. specialize (HF q Hq). lia. }
  unfold bind at 1, get_sk at 1. rewrite Q1, EPos. unfold bind at 1.
  destruct (process_ack_runs (length l1) p t1 HK1) as (t2 & E2 & W2 & T2); [rewrite Q1, nth_error_app2, Nat.sub_diag by lia; reflexivity|rewrite Q2; lia|]. rewrite E2.
  assert (C2 : 500 <= s_congestion_timeout (sk t2) <= 60000).
  { destruct (process_ack_cwnd _ _ _ E2) as (_ & _ & _ & H). destruct HK1 as (_ & HEs & _). unfold estimates_ok in HEs. apply H; tauto || lia. }
  assert (Q3 : s_send_window (sk t2) = l1 ++ p :: l2 /\ s_curr_window (sk t2) = sum_len (l1 ++ p :: l2) /\ s_duplicate_ack_count (sk t2) = 1 /\ s_last_acked (sk t2) = ack_nr r).
  { destruct T2 as (? & ? & ? & ? & ? & ? & ? & ->). sproj. auto. }
  destruct Q3 as (Q3 & Q4 & Q5 & Q6). assert (HN : is_nil (l1 ++ p :: l2) = false) by (destruct l1; reflexivity).
  unfold bind at 1, get_sk at 1. rewrite Q3, Q5, HE, HN. cbv zeta. cbn [negb andb Z.eqb Pos.eqb unwrap]. unfold bind at 1, ret at 1. cbn [process_extensions]. unfold bind at 1, ret at 1.
  unfold finish_state_packet, bind at 1, get_sk at 1. rewrite Q3, Q5, HN. cbn [is_nil negb andb Z.eqb Pos.eqb]. unfold bind at 1, ret at 1. unfold bind at 1, ret at 1.
  unfold advance_send_window, bind at 1, get_sk at 1. rewrite Q3, Q6, EPos'. rewrite drop_acked_exact; rewrite ?Q3; [|rewrite app_length; cbn [length]; lia|exact Q4|lia|lia].
  replace (skipn (length l1 + 1) (l1 ++ p :: l2)) with l2 by (rewrite skipn_app, skipn_all2 by lia; replace (length l1 + 1 - length l1)%nat with 1%nat by lia; reflexivity).
  eexists. exists (sk t2). split; [reflexivity|]. cbn [sk wd]. split; [exact W2|]. split; [exact T2|]. split; [reflexivity|exact C2].
Qed.

Lemma flight_waited ay a c cs q fl s s' : flight ay a (c :: cs) s -> chunkp (s_sender_connection_id (sk s)) (a mod 65536) c q -> (exists p, s_send_window (sk s) = p :: fl) -> waited (q :: fl) (sk s) (sk s') -> w_in (wd s') = [] -> w_send (wd s') = w_send (wd s) ->
  w_chk (wd s') = w_chk (wd s) -> flight ay a (c :: cs) s'.
Proof.
  intros [F1 F2 F3 F4 F5 F6 F7 F8 F9 F10 F11 F12 F14] HQ (p & HW) (cw & t & K) I X C. rewrite HW in *. destruct F9 as (L1 & L2 & L3).
  destruct (chunkp_facts _ _ _ _ HQ ltac:(apply Z.mod_pos_bound; lia) (proj1 F12) L1) as (G1 & _). destruct (chunkp_facts _ _ _ _ L2 ltac:(apply Z.mod_pos_bound; lia) (proj1 F12) L1) as (G2 & _).
  assert (EL : total (q :: fl) = total (p :: fl)) by (cbn [total fold_right]; unfold packet_len, zlen; now rewrite G1, G2).
  assert (HO : ok s'). { destruct F8 as (O1 & O2 & O3 & O4 & O5). rewrite C, K. split; [exact O1|]. split; [exact O2|]. sproj. rewrite HW in O3. inversion_clear O3. split; [constructor; [unfold long; lia|assumption]|]. split; [exact O4|]. intros Hc. specialize (O5 Hc). rewrite HW in O5. rewrite EL. exact O5. }
  constructor; try exact HO; try (rewrite K; sproj); try assumption.
  - intros i. rewrite X. apply F6.
  - cbn [laid]. auto.
  - rewrite EL. exact F10.
Qed.
(** The timer expires as [ks] tells; then the packet after [cs] is acknowledged. *)
Lemma repair ay a cs c ds ks q sq s : flight ay a (cs ++ c :: ds) s -> all_timeouts ks -> 0 <= s_congestion_timeout (sk s) -> s_congestion_timeout (sk s) * 2 ^ Z.of_nat (length ks) < 2 ^ 64 -> Z.of_nat (length ks) < s_max_retries (sk s) ->
  state_reply q (s_receiver_connection_id (sk s)) sq ((a + Z.of_nat (length cs)) mod 65536) -> 0 <= sq < 65536 ->
  exists ps s', recv BUF_SIZE (script (map RxErr ks ++ [RxDgram q ay]) s) = (Ret ([], ay), s') /\ flight ay (a + Z.of_nat (length cs) + 1) ds s' /\ kept sq (sk s) (sk s') /\ length ps = length ks /\
    w_sent (wd s') = w_sent (wd s) ++ map (pair ay) ps /\ 500 <= s_congestion_timeout (sk s') <= 60000 /\ s_last_acked (sk s') = (a + Z.of_nat (length cs)) mod 65536.
Proof.
  intros HF HK H0 HT HM HQ Hsq. assert (Hne : exists c0 ds0, cs ++ c :: ds = c0 :: ds0) by (destruct cs; cbn; eauto). destruct Hne as (c0 & ds0 & Ec0).
  set (s0 := script (map RxErr ks ++ [RxDgram q ay]) s).
  assert (HW : exists p0 fl0, s_send_window (sk s) = p0 :: fl0 /\ chunkp (s_sender_connection_id (sk s)) (a mod 65536) c0 p0).
  { pose proof (f_laid _ _ _ _ HF) as H. rewrite Ec0 in H. destruct (s_send_window (sk s)) as [|p0 fl0]; [destruct H|]. destruct H as (_ & H & _). eauto. }
  destruct HW as (p0 & fl0 & HW & HP0).
  destruct (speaker_waits (chunkp (s_sender_connection_id (sk s)) (a mod 65536) c0) ltac:(intros; now apply chunkp_stamp) ks p0 fl0 s0 [RxDgram q ay] HK) as (ps & q0 & s1 & N & _ & HQ0 & W1 & I1 & X1 & C1 & L1 & E1);
    try exact HW; try exact HP0; try exact (f_sends _ _ _ _ HF); try exact H0; try exact HT; try exact HM; [unfold s0, script; cbn [wd]; sproj; rewrite (f_in _ _ _ _ HF); reflexivity|].
  change (sk s0) with (sk s) in *. change (w_sent (wd s0)) with (w_sent (wd s)) in L1. rewrite (f_to _ _ _ _ HF) in L1.
  destruct HQ as (ts & tsd & Er). assert (Rlen : length q = 20%nat) by (rewrite Er, wire_length; reflexivity).
  destruct (f_ids _ _ _ _ HF) as (IDs & IDr). pose proof (Z.mod_pos_bound (a + Z.of_nat (length cs)) 65536 ltac:(lia)) as HB.
  assert (Rval : packet_try_from q = Some (Ok q)) by (rewrite Er; apply wire_valid; constructor).
  assert (Rty : get_type q = Some PState) by (rewrite Er, get_type_wire; reflexivity).
  assert (Rcid : connection_id q = s_receiver_connection_id (sk s)) by (rewrite Er, cid_wire; cbn [h_cid]; apply u16_small; lia).
  assert (Rseq : seq_nr q = sq) by (rewrite Er, seq_wire; cbn [h_seq]; apply u16_small; lia).
  assert (Rack : ack_nr q = (a + Z.of_nat (length cs)) mod 65536) by (rewrite Er, ack_wire; cbn [h_ack]; apply u16_small; lia).
  assert (Rext : extensions q = Some []) by (rewrite Er, extensions_wire by constructor; reflexivity). clear Er.
  rewrite firstn_all2 in E1 by lia. pose proof (recv_waited BUF_SIZE _ _ _ _ E1) as ER. rewrite (process_packet _ _ _ _ q PState _ Rval Rty) in ER.
  set (s2 := rx_state s1) in *. assert (I2 : w_in (wd s2) = []) by (unfold s2, rx_state; cbn [wd]; sproj; rewrite I1; reflexivity).
  assert (HF2 : flight ay a (c0 :: ds0) s2).
  { rewrite Ec0 in HF. apply (flight_waited ay a c0 ds0 q0 fl0 s s2 HF HQ0); [eauto|exact W1|exact I2|exact X1|exact C1]. }
  rewrite <- Ec0 in HF2. pose proof HF2 as [M1 M2 M3 M4 M5 M6 M7 M8 M9 M10 M11 M12 (la & G1 & G2 & G3)].
  assert (KW : kept sq (sk s) (sk s2)) by (change (sk s2) with (sk s1); destruct W1 as (? & ? & ->); unfold kept; sproj; auto 12).
  destruct (laid_split _ _ _ _ _ _ M9) as (l1 & p & l2 & EW & HL1 & HP & Hc & HL2). destruct M12 as (M12 & M12'). 
  pose proof (laid_total _ _ _ _ M12 M9) as (_ & HTo & _). pose proof (laid_sum _ _ _ _ M12 M9) as HSu. pose proof (laid_sum _ _ _ _ M12 HL2) as HS2. rewrite app_length in HTo, G3. cbn [length] in HTo, G3.
  destruct (chunkp_facts _ _ _ _ HP HB M12 Hc) as (P1 & _ & _ & P4 & _).
  assert (HN1 : Forall (fun p => seq_nr p <> ack_nr q) l1) by (apply (laid_numbers _ _ _ _ _ M12 HL1); intros i Hi; rewrite Rack; lia).
  unfold bind at 1 in ER. assert (OW : own_id (sk s2) q) by (right; rewrite Rcid; destruct KW as (_ & _ & -> & _); reflexivity).
  rewrite (handle_own _ q ay PState s2 Rty (or_introl OW)) in ER.
  remember (noted q s2) as t eqn:E. assert (Et : sk t = ss_their_delay (abs_diff (clock_now s2) (timestamp q)) (ss_remote_wnd_size (wnd_size q) (acked_sk q (sk s2)))) by (rewrite E; reflexivity).
  assert (Ew : wd (ticked (ticked t)) = wd (ticked (ticked (ticked s2)))) by (rewrite E; reflexivity).
  assert (HKt : ok t). { rewrite E. unfold noted. cbn [sk wd]. unfold acked_sk. destruct (_ =? 1); exact M8. }
  clear E. assert (K1 : s_state (sk t) = Connected /\ s_send_window (sk t) = l1 ++ p :: l2 /\ s_curr_window (sk t) = sum_len (l1 ++ p :: l2) /\ s_last_acked (sk t) = s_last_acked (sk s2)).
  { rewrite Et. sproj. rewrite (acked_other s_state), (acked_other s_send_window), (acked_other s_curr_window), (acked_other s_last_acked) by reflexivity. rewrite <- EW, HSu. auto. }
  destruct K1 as (K1 & K2 & K3 & K4).
  assert (HNe : s_last_acked (sk t) <> ack_nr q) by (rewrite K4, G1, Rack; lia).
  destruct (state_at (recv_fuel (length (w_in (wd s0)))) q l1 p l2 t Rext HKt K2 K3 ltac:(rewrite <- EW, HSu; lia) ltac:(congruence) HN1 HNe) as (s' & k1 & E2 & W2 & T2 & S2 & C2).
  assert (ED : dispatch (recv_fuel (length (w_in (wd s0)))) q PState ay t = (Ret None, s')) by (unfold dispatch, bind at 1, get_sk at 1; rewrite K1; unfold bind at 1; rewrite E2; reflexivity).
  rewrite ED in ER. clear ED E2.
  assert (KK : kept sq (sk s2) (sk s') /\ s_state (sk s') = Connected /\ s_pending_data (sk s') = [] /\ s_incoming_buffer (sk s') = [] /\ s_send_window (sk s') = l2 /\ s_curr_window (sk s') = total l2 /\
    s_last_acked (sk s') = (a + Z.of_nat (length cs)) mod 65536 /\ s_congestion_timeout (sk s') = s_congestion_timeout k1).
  { rewrite S2. destruct T2 as (? & ? & ? & ? & ? & ? & ? & ->). unfold kept. sproj. rewrite Et. sproj.
    rewrite (acked_other s_state), (acked_other s_pending_data), (acked_other s_incoming_buffer), (acked_other s_unsent_queue), (acked_other s_max_retries), (acked_other s_connected_to), (acked_other s_sender_connection_id),
      (acked_other s_receiver_connection_id), (acked_other s_seq_nr), (acked_other s_last_dropped) by reflexivity. rewrite Rack.
    split; [repeat (split; [reflexivity|])|repeat (split; [assumption || reflexivity|]); reflexivity]. unfold acked_sk. rewrite Rseq. destruct (_ =? 1); sproj; auto. }
  clear S2 T2 Et. destruct KK as (KK & N1 & N2 & N3 & N4 & N6 & N7 & N8). unfold answer in ER. unfold bind at 1, ret at 1 in ER. unfold bind at 1, get_sk at 1 in ER. cbn [ptype_eqb andb] in ER. unfold bind at 1, ret at 1 in ER. unfold bind at 1 in ER.
  rewrite flush_empty in ER by assumption. unfold ret in ER.
  assert (O0 : ok s0) by exact (f_ok _ _ _ _ HF). pose proof (safe_call BUF_SIZE s0 O0) as HS. unfold wp in HS. rewrite ER in HS. destruct HS as (Hch & Hok & _). cbn [snd] in Hch, Hok.
  exists ps, s'. split; [exact ER|]. pose proof KK as (Y1 & Y2 & Y3 & Y4 & Y5 & Y6 & Y8 & Y7). split; [|split; [exact (kept_trans _ _ _ _ KW KK)|split; [exact N|split; [|split; [rewrite N8; exact C2|exact N7]]]]].
  - constructor; try assumption; try (rewrite ?Y1, ?Y2, ?Y3, ?Y8, ?N4; assumption).
    + intros i. rewrite W2, Ew. apply M6.
    + rewrite W2, Ew. exact I2.
    + rewrite Y4, M11, app_length. cbn [length]. f_equal. lia.
    + rewrite Y2, Y3. split; assumption.
    + exists (a + Z.of_nat (length cs)). split; [exact N7|]. lia.
  - rewrite W2, Ew. exact L1.
Qed.
(** The timer expires as [ks] tells, and nothing else happens. *)
Lemma stays ay a c cs ks s : flight ay a (c :: cs) s -> all_timeouts ks -> 0 <= s_congestion_timeout (sk s) -> s_congestion_timeout (sk s) * 2 ^ Z.of_nat (length ks) < 2 ^ 64 -> Z.of_nat (length ks) < s_max_retries (sk s) ->
  exists ps t, recv BUF_SIZE (script (map RxErr ks) s) = (Fail Pend, t) /\ length ps = length ks /\ Forall (chunkp (s_sender_connection_id (sk s)) (a mod 65536) c) ps /\ w_sent (wd t) = w_sent (wd s) ++ map (pair ay) ps.
Proof.
  intros HF HK H0 HT HM. set (s0 := script (map RxErr ks) s).
  assert (HW : exists p0 fl0, s_send_window (sk s) = p0 :: fl0 /\ chunkp (s_sender_connection_id (sk s)) (a mod 65536) c p0).
  { pose proof (f_laid _ _ _ _ HF) as H. destruct (s_send_window (sk s)) as [|p0 fl0]; [destruct H|]. destruct H as (_ & H & _). eauto. }
  destruct HW as (p0 & fl0 & HW & HP0).
  destruct (speaker_waits (chunkp (s_sender_connection_id (sk s)) (a mod 65536) c) ltac:(intros; now apply chunkp_stamp) ks p0 fl0 s0 [] HK) as (ps & q0 & s1 & N & F & _ & _ & _ & _ & _ & L1 & E1);
    try exact HW; try exact HP0; try exact (f_sends _ _ _ _ HF); try exact H0; try exact HT; try exact HM; [unfold s0, script; cbn [wd]; sproj; rewrite (f_in _ _ _ _ HF), app_nil_r; reflexivity|].
  exists ps, s1. split; [apply recv_pends; exact E1|]. split; [exact N|]. split; [exact F|]. change (sk s0) with (sk s) in L1. rewrite (f_to _ _ _ _ HF) in L1. exact L1.
Qed.


(** ** A flush, step by step *)
(** After the events [evs], the flush begun in [x1] stands at the head of its loop in [s]. *)
Definition gets (x1 : st) (evs : list rx) (s : st) : Prop := exists k, forall more, flush (script (evs ++ more) x1) = loop (k + S (length more)) flush_body tt (script more s).
Lemma script_app l more s : script (l ++ more) s = ext more (script l s).
Proof. unfold ext, script. cbn [sk wd]. sproj. rewrite app_assoc. destruct (wd s). reflexivity. Qed.
Lemma script_ext more s : ext more s = script more s. Proof. reflexivity. Qed.
Lemma gets_start x : w_in (wd x) = [] -> gets x [] x.
Proof. intros H. exists O. intros more. cbn [app Nat.add]. rewrite flush_eq. unfold script at 1. cbn [wd]. sproj. rewrite H. reflexivity. Qed.
Lemma gets_step x1 evs s l v s' : gets x1 evs s -> s_send_window (sk s) <> [] -> l <> [] -> recv BUF_SIZE (script l s) = (Ret v, s') -> gets x1 (evs ++ l) s'.
Proof.
  intros (k & H) HW HL HR. exists (k + length l - 1)%nat. intros more. rewrite <- app_assoc, H. rewrite script_app, app_length.
  replace (k + S (length l + length more))%nat with (S (k + length l - 1 + S (length more))) by (destruct l; [congruence|]; cbn [length]; lia). apply loop_step.
  unfold flush_body, bind at 1, get_sk at 1. change (sk (ext more (script l s))) with (sk s). destruct (s_send_window (sk s)) eqn:E; [congruence|]. cbn [is_nil]. unfold bind at 1.
  rewrite (same_call more BUF_SIZE _ _ _ HR I). reflexivity.
Qed.
Lemma gets_pend x1 evs s l t : gets x1 evs s -> s_send_window (sk s) <> [] -> recv BUF_SIZE (script l s) = (Fail Pend, t) -> flush (script (evs ++ l) x1) = (Fail Pend, t).
Proof.
  intros (k & H) HW HR. rewrite H. replace (k + S (length l))%nat with (S (k + length l)) by lia. cbn [loop]. unfold bind at 1, flush_body at 1, bind at 1, get_sk at 1. change (sk (script l s)) with (sk s).
  destruct (s_send_window (sk s)) eqn:E; [congruence|]. cbn [is_nil]. unfold bind at 1. rewrite HR. reflexivity.
Qed.
Lemma gets_done x1 evs s : gets x1 evs s -> s_send_window (sk s) = [] -> flush (script evs x1) = (Ret tt, s).
Proof.
  intros (k & H) HW. specialize (H []). rewrite app_nil_r in H. rewrite H, script_nil. cbn [length]. replace (k + 1)%nat with (S k) by lia. cbn [loop]. unfold bind at 1, flush_body at 1, bind at 1, get_sk at 1. rewrite HW. reflexivity.
Qed.

(** ** The burst *)
Lemma steady_refl k : steady k k. Proof. unfold steady. auto 10. Qed.
Lemma steady_trans a b c : steady a b -> steady b c -> steady a c.
Proof. unfold steady. intuition congruence. Qed.
Lemma ahead_nonneg ds : 0 <= ahead_of_last ds.
Proof. unfold ahead_of_last. induction (removelast ds) as [|d l IH]; cbn [fold_right]; lia. Qed.
Lemma ahead_cons d d' ds : ahead_of_last (d :: d' :: ds) = 20 + Z.of_nat (length d) + ahead_of_last (d' :: ds). Proof. reflexivity. Qed.
Lemma ahead_length ds : Forall (fun d : list byte => (0 < length d <= 1380)%nat) ds -> ds <> [] -> 21 * (Z.of_nat (length ds) - 1) <= ahead_of_last ds.
Proof.
  induction ds as [|d [|d' ds] IH]; intros H Hn; [congruence|cbn; lia|]. rewrite ahead_cons. inversion_clear H. specialize (IH H1 ltac:(discriminate)). cbn [length] in *. lia.
Qed.
Lemma says_runs ay ds : forall a cs s, reachable s -> flight ay a cs s -> Forall (fun d : list byte => (0 < length d <= 1380)%nat) ds -> total (s_send_window (sk s)) + ahead_of_last ds < 2800 \/ ds = [] ->
  (exists la, s_last_acked (sk s) = la mod 65536 /\ la < a /\ a + Z.of_nat (length cs) + Z.of_nat (length ds) - 1 - la <= 32768) ->
  exists ps s', says ay ds ps s s' /\ length ps = length ds /\ reachable s' /\ flight ay a (cs ++ ds) s' /\ steady (sk s) (sk s') /\ s_send_window (sk s') = s_send_window (sk s) ++ ps.
Proof.
  induction ds as [|d ds IH]; intros a cs s HR HF HD HA HG.
  - exists [], s. rewrite !app_nil_r. split; [split; [reflexivity|unfold sent_to; cbn; now rewrite app_nil_r]|]. split; [reflexivity|]. split; [exact HR|]. split; [exact HF|]. split; [apply steady_refl|reflexivity].
  - inversion_clear HD. destruct HA as [HA|HA]; [|discriminate]. pose proof (ahead_nonneg (d :: ds)). destruct HG as (la & G1 & G2 & G3). cbn [length] in G3.
    destruct (push_runs ay a cs d s HR HF H ltac:(lia)) as (s1 & p & O1 & L1 & R1 & F1 & S1 & W1). { exists la. split; [exact G1|]. lia. }
    assert (HT : total [p] <= 20 + Z.of_nat (length d)).
    { pose proof (f_laid _ _ _ _ F1) as HL. destruct (laid_split _ _ _ _ _ _ HL) as (l1 & p' & l2 & E & _ & HP & _ & HN). destruct l2; [|destruct HN]. rewrite W1 in E. apply app_inj_tail in E as [_ <-].
      destruct (chunkp_facts _ _ _ _ HP ltac:(apply Z.mod_pos_bound; lia) (proj1 (f_ids _ _ _ _ F1)) H) as (P1 & _). cbn [total fold_right]. rewrite u32_small by (unfold packet_len, zlen; lia). unfold packet_len, zlen. lia. }
    destruct (IH a (cs ++ [d]) s1 R1 F1 H0) as (ps & s' & (O2 & L2) & N2 & R2 & F2 & S2 & W2).
    { destruct ds as [|d' ds]; [now right|left]. rewrite ahead_cons in HA. rewrite W1, total_app. cbn [total fold_right] in HT. lia. }
    { exists la. split; [destruct S1 as (_ & _ & _ & _ & _ & _ & ->); exact G1|]. rewrite app_length. cbn [length]. lia. }
    exists (p :: ps), s'. rewrite <- app_assoc in F2. split; [|split; [cbn [length]; congruence|split; [exact R2|split; [exact F2|split; [exact (steady_trans _ _ _ S1 S2)|]]]]].
    + split; [cbn [map run_ops]; rewrite O1, O2; reflexivity|]. unfold sent_to in *. cbn [map]. rewrite L2, L1, <- app_assoc. reflexivity.
    + rewrite W2, W1, <- app_assoc. reflexivity.
Qed.
(** The first packets are read and the answers come in. *)
Lemma first_runs ax ay n x1 cs1 : forall cs2 ps1 a evs s y, (1380 <= n)%nat -> gets x1 evs s -> flight ay a (cs1 ++ cs2) s -> (exists ps2, laid (s_sender_connection_id (sk s)) a (cs1 ++ cs2) (ps1 ++ ps2) /\ length ps1 = length cs1) ->
  0 <= s_congestion_timeout (sk s) <= 60000 -> 0 < s_max_retries (sk s) -> at_ease y -> ready a y -> s_sender_connection_id (sk s) = s_receiver_connection_id (sk y) -> s_sender_connection_id (sk y) = s_receiver_connection_id (sk s) ->
  exists qs s' y', read_each ax n ps1 cs1 qs y y' /\ gets x1 (evs ++ map (fun q => RxDgram q ay) qs) s' /\ flight ay (a + Z.of_nat (length cs1)) cs2 s' /\ kept (s_seq_nr (sk y)) (sk s) (sk s') /\ w_sent (wd s') = w_sent (wd s) /\
    0 <= s_congestion_timeout (sk s') <= 60000 /\ at_ease y' /\ reader (sk y) (sk y') /\ ready (a + Z.of_nat (length cs1)) y' /\ (if cs1 then s' = s else s_last_acked (sk s') = (a + Z.of_nat (length cs1) - 1) mod 65536).
Proof.
  induction cs1 as [|c cs1 IH]; intros cs2 ps1 a evs s y Hn HG HF (ps2 & HL & HN) HC HM HY HR I1 I2.
  - destruct ps1; [|cbn in HN; lia]. exists [], s, y. cbn [map length]. rewrite app_nil_r. replace (a + Z.of_nat 0) with a by lia. split; [constructor|]. auto 12 using kept_refl, reader_refl.
  - destruct ps1 as [|p ps1]; [cbn in HN; lia|]. cbn [app] in HL, HF. destruct HL as (Hc & HP & HL). rewrite I1 in HP.
    destruct (read_step ax n a c p y HY HP Hc Hn HR) as (q & y1 & ER & SR & HQ & HY1 & HRd & HR1). rewrite I2 in HQ. pose proof HRd as (D1 & D2 & D3 & D4 & D5 & _).
    assert (HQ' : state_reply q (s_receiver_connection_id (sk s)) (s_seq_nr (sk y)) ((a + Z.of_nat (length (@nil (list byte)))) mod 65536)) by (cbn [length]; replace (a + Z.of_nat 0) with a by lia; exact HQ).
    destruct (repair ay a [] c (cs1 ++ cs2) [] q (s_seq_nr (sk y)) s HF ltac:(constructor) ltac:(lia) ltac:(cbn [length Z.of_nat]; change (2 ^ 0) with 1; change (2^64) with 18446744073709551616; lia) HM HQ') as (rs & s1 & E1 & F1 & K1 & N1 & L1 & C1 & A1).
    { apply (r_seq _ (reachable_ranges y (proj1 HY))). }
    destruct rs; [|cbn in N1; lia]. cbn [map] in L1. rewrite app_nil_r in L1. cbn [length map app] in E1, F1, A1. replace (a + Z.of_nat 0) with a in F1, A1 by lia.
    assert (HWn : s_send_window (sk s) <> []) by (intros E; pose proof (f_laid _ _ _ _ HF) as H; rewrite E in H; exact H).
    assert (HG1 : gets x1 (evs ++ [RxDgram q ay]) s1) by (eapply gets_step; [exact HG|exact HWn|discriminate|exact E1]). pose proof K1 as (G1 & G2 & G3 & G4 & G5 & G6 & G8 & G7).
    destruct (IH cs2 ps1 (a + 1) (evs ++ [RxDgram q ay]) s1 y1 Hn HG1 F1) as (qs & s' & y' & R' & G' & F' & K' & L' & C' & Y' & Rd' & RR' & A'); auto.
    { exists ps2. rewrite G2. split; [exact HL|cbn in HN; lia]. } { lia. } { rewrite G6. exact HM. } { congruence. } { congruence. }
    exists (q :: qs), s', y'. rewrite D4 in K'. cbn [length map]. replace (a + Z.of_nat (S (length cs1))) with (a + 1 + Z.of_nat (length cs1)) by lia.
    split; [econstructor; [apply read_waits; assumption|eassumption..]|]. split; [rewrite <- app_assoc in G'; exact G'|]. split; [exact F'|]. split; [exact (kept_trans _ _ _ _ K1 K')|]. split; [congruence|]. split; [exact C'|]. split; [exact Y'|].
    split; [exact (reader_trans _ _ _ HRd Rd')|]. split; [exact RR'|]. destruct cs1 as [|c1 cs1]; [subst s'; rewrite A1; cbn [length]; f_equal; lia|exact A'].
Qed.
Lemma last_in {A} (l : list A) d : l <> [] -> In (last l d) l.
Proof. intros H. destruct (exists_last H) as (l' & x & ->). rewrite last_last. apply in_or_app. right. now left. Qed.
(** The others are sent again. *)
Lemma recovered_runs ax ay n x1 cs : forall kss a evs rs s y, (1380 <= n)%nat -> gets x1 evs s -> flight ay a cs s -> w_sent (wd s) = w_sent (wd x1) ++ map (pair ay) rs -> length kss = length cs ->
  Forall (fun ks => ks <> [] /\ all_timeouts ks /\ Z.of_nat (length ks) < s_max_retries (sk s) /\ (length ks <= 48)%nat) kss ->
  0 <= s_congestion_timeout (sk s) <= 60000 -> at_ease y -> ready a y -> s_sender_connection_id (sk s) = s_receiver_connection_id (sk y) -> s_sender_connection_id (sk y) = s_receiver_connection_id (sk s) ->
  exists evs' rs' s' y', recovered ax ay n x1 evs rs kss cs y evs' rs' y' /\ gets x1 evs' s' /\ flight ay (a + Z.of_nat (length cs)) [] s' /\ kept (s_seq_nr (sk y)) (sk s) (sk s') /\ w_sent (wd s') = w_sent (wd x1) ++ map (pair ay) rs' /\
    0 <= s_congestion_timeout (sk s') <= 60000 /\ at_ease y' /\ reader (sk y) (sk y') /\ ready (a + Z.of_nat (length cs)) y' /\ (if cs then s' = s else s_last_acked (sk s') = (a + Z.of_nat (length cs) - 1) mod 65536).
Proof.
  induction cs as [|c cs IH]; intros [|ks kss] a evs rs s y Hn HG HF HS HN HK HC HY HR I1 I2; try (cbn in HN; lia).
  - exists evs, rs, s, y. cbn [length]. replace (a + Z.of_nat 0) with a by lia. split; [constructor|]. auto 12 using kept_refl, reader_refl.
  - pose proof (Forall_inv HK) as (K0 & KT & KM & K48). apply Forall_inv_tail in HK.
    assert (HT : s_congestion_timeout (sk s) * 2 ^ Z.of_nat (length ks) < 2 ^ 64).
    { eapply Z.le_lt_trans; [apply (Z.mul_le_mono_nonneg _ 60000 _ (2 ^ 48)); [lia|lia|apply Z.pow_nonneg; lia|apply Z.pow_le_mono_r; lia]|]. reflexivity. }
    assert (HWn : s_send_window (sk s) <> []) by (intros E; pose proof (f_laid _ _ _ _ HF) as H; rewrite E in H; exact H).
    assert (Hc : (0 < length c <= 1380)%nat) by (pose proof (f_laid _ _ _ _ HF) as H; destruct (s_send_window (sk s)); [destruct H|destruct H as (H & _); exact H]).
    destruct (stays ay a c cs ks s HF KT ltac:(lia) HT KM) as (ps & t & E1 & N1 & F1 & L1). pose proof (gets_pend _ _ _ _ _ HG HWn E1) as EF.
    assert (HP : chunkp (s_receiver_connection_id (sk y)) (a mod 65536) c (last ps [])).
    { rewrite <- I1. rewrite Forall_forall in F1. apply F1, last_in. destruct ps; [destruct ks; [congruence|cbn in N1; lia]|discriminate]. }
    destruct (read_step ax n a c (last ps []) y HY HP Hc Hn HR) as (q & y1 & ER & SR & HQ & HY1 & HRd & HR1). rewrite I2 in HQ. pose proof HRd as (D1 & D2 & D3 & D4 & D5 & _).
    assert (HQ' : state_reply q (s_receiver_connection_id (sk s)) (s_seq_nr (sk y)) ((a + Z.of_nat (length (@nil (list byte)))) mod 65536)) by (cbn [length]; replace (a + Z.of_nat 0) with a by lia; exact HQ).
    destruct (repair ay a [] c cs ks q (s_seq_nr (sk y)) s HF KT ltac:(lia) HT KM HQ') as (ps' & s1 & E2 & F2 & K2 & N2 & L2 & C2 & A2).
    { apply (r_seq _ (reachable_ranges y (proj1 HY))). }
    cbn [length] in F2, A2. replace (a + Z.of_nat 0) with a in F2, A2 by lia.
    assert (EP : ps' = ps).
    { destruct (proj2 (proj2 (leads_call [RxDgram q ay] BUF_SIZE)) (script (map RxErr ks) s)) as (later & EL). rewrite E1 in EL. cbn [snd] in EL. rewrite <- script_app, E2 in EL. cbn [snd] in EL. rewrite L1, L2, <- app_assoc in EL. apply app_inv_head in EL.
      assert (HL : later = []). { apply length_zero_iff_nil. apply (f_equal (@length _)) in EL. rewrite app_length, !map_length in EL. lia. }
      rewrite HL, app_nil_r in EL. apply (f_equal (map snd)) in EL. rewrite !map_map in EL. cbn [snd] in EL. rewrite !map_id in EL. exact EL. }
    subst ps'. assert (HG1 : gets x1 (evs ++ map RxErr ks ++ [RxDgram q ay]) s1) by (eapply gets_step; [exact HG|exact HWn|destruct ks; discriminate|exact E2]). pose proof K2 as (G1 & G2 & G3 & G4 & G5 & G6 & G8 & G7).
    destruct (IH kss (a + 1) (evs ++ map RxErr ks ++ [RxDgram q ay]) (rs ++ ps) s1 y1 Hn HG1 F2) as (evs' & rs' & s' & y' & R' & G' & F' & K' & L' & C' & Y' & Rd' & RR' & A'); auto.
    { rewrite L2, HS, map_app, <- app_assoc. reflexivity. } { rewrite G6. exact HK. } { lia. } { congruence. } { congruence. }
    exists evs', rs', s', y'. rewrite D4 in K'. cbn [length]. replace (a + Z.of_nat (S (length cs))) with (a + 1 + Z.of_nat (length cs)) by lia.
    split; [|split; [exact G'|split; [exact F'|split; [exact (kept_trans _ _ _ _ K2 K')|split; [exact L'|split; [exact C'|split; [exact Y'|split; [exact (reader_trans _ _ _ HRd Rd')|split; [exact RR'|]]]]]]]]].
    + eapply rec_cons; [cbn [run_op]; unfold bind; rewrite EF; reflexivity|unfold sent_to; rewrite L1, HS, map_app, <- app_assoc; reflexivity|exact N1|exact ER|exact SR|exact R'].
    + destruct cs as [|c1 cs]; [subst s'; rewrite A2; cbn [length]; f_equal; lia|exact A'].
Qed.

Lemma ease_flight ay x : at_ease x -> s_connected_to (sk x) = ay -> 1 <= lead x <= 32768 -> flight ay (s_seq_nr (sk x)) [] x.
Proof.
  intros (RX & SX & PX & BX & WX & UX & MX & IX & TX) AX HL. pose proof (reachable_ranges x RX) as NX. pose proof (r_seq _ NX). pose proof (r_lacked _ NX).
  constructor; try assumption; try (rewrite WX); try exact I; try reflexivity.
  - apply reachable_ok. exact RX.
  - pose proof (reachable_inflight x RX) as HI. unfold inflight in HI. rewrite WX in HI. exact HI.
  - cbn [length Z.of_nat]. lia.
  - split; [apply (r_scid _ NX)|apply (r_rcid _ NX)].
  - exists (s_seq_nr (sk x) - lead x). unfold lead in *. cbn [length Z.of_nat]. lia.
Qed.
Lemma tail_runs ax ay n ds j kss x y : joined ax ay x y -> listens x y -> lead x <= 32635 -> s_congestion_timeout (sk x) <= 60000 -> (1380 <= n)%nat -> repairable (s_max_retries (sk x)) (ds, j, kss) ->
  exists x' y', tail_lost ax ay n ds j kss x y x' y' /\ joined ax ay x' y' /\ listens x' y' /\ (listens y x -> listens y' x') /\ lead x' <= 32635 /\ s_congestion_timeout (sk x') <= 60000 /\ s_max_retries (sk x') = s_max_retries (sk x).
Proof.
  intros (HX & HY & AX & AY & I1 & I2) (LA & LD & LL) HLe HC Hn (HD & HAh & Hj & HK & HKs). pose proof HX as (RX & SX & PX & BX & WX & UX & MX & IX & TX).
  pose proof (reachable_ranges x RX) as NX. pose proof (r_seq _ NX) as QX. pose proof (r_cto _ NX) as CX. fold (lead x) in LL.
  pose proof (ease_flight ay x HX AX ltac:(lia)) as F0. set (a := s_seq_nr (sk x)) in *.
  assert (HLen : ds = [] \/ Z.of_nat (length ds) <= 134). { destruct ds as [|d ds]; [now left|right]. pose proof (ahead_length (d :: ds) HD ltac:(discriminate)). lia. }
  destruct (says_runs ay ds a [] x RX F0 HD) as (ps & x1 & SY & NP & RX1 & F1 & S1 & W1).
  { left. rewrite WX. cbn [total fold_right]. lia. } { exists (a - lead x). split; [unfold a, lead; pose proof (r_lacked _ NX); lia|]. cbn [length]. destruct HLen as [->|HLen]; cbn [length]; lia. }
  cbn [app] in F1. rewrite WX in W1. cbn [app] in W1. destruct S1 as (D1 & D2 & D3 & D4 & D5 & D6 & D7).
  set (cs1 := firstn j ds). set (cs2 := skipn j ds). assert (EC : cs1 ++ cs2 = ds) by apply firstn_skipn.
  assert (HN1 : length (firstn j ps) = length cs1) by (unfold cs1; rewrite !firstn_length; lia).
  rewrite <- EC in F1. pose proof (f_laid _ _ _ _ F1) as HLd. rewrite W1, <- (firstn_skipn j ps) in HLd.
  destruct (first_runs ax ay n x1 cs1 cs2 (firstn j ps) a [] x1 y Hn (gets_start x1 (f_in _ _ _ _ F1)) F1) as (qs & s2 & y1 & R2 & G2 & F2 & K2 & L2 & C2 & Y2 & Rd2 & RR2 & A2).
  { exists (skipn j ps). split; [exact HLd|exact HN1]. } { rewrite D6. lia. } { rewrite D4. exact MX. } { exact HY. }
  { unfold ready. pose proof (r_ack _ (reachable_ranges y (proj1 HY))). replace (a mod 65536) with a by lia. auto. } { congruence. } { congruence. }
  cbn [app] in G2. pose proof K2 as (E1 & E2 & E3 & E4 & E5 & E6 & E8 & E7). pose proof Rd2 as (H1 & H2 & H3 & H4 & H5).
  destruct (recovered_runs ax ay n x1 cs2 kss _ _ [] s2 y1 Hn G2 F2) as (evs & rs & x' & y' & R3 & G3 & F3 & K3 & L3 & C3 & Y3 & Rd3 & RR3 & A3); auto.
  { cbn [map]. rewrite app_nil_r. exact L2. } { unfold cs2. rewrite skipn_length. exact HK. } { rewrite E6, D4. exact HKs. } { congruence. } { congruence. }
  assert (WX' : s_send_window (sk x') = []) by (pose proof (f_laid _ _ _ _ F3) as H; destruct (s_send_window (sk x')); [reflexivity|destruct H]).
  pose proof (run_flush _ _ (gets_done _ _ _ G3 WX')) as O3. assert (RX' : reachable x') by (eapply op_reachable; [|exact O3]; apply script_reachable; exact RX1).
  rewrite H4 in K3. pose proof (kept_trans _ _ _ _ K2 K3) as (T1 & T2 & T3 & T4 & T5 & T6 & T8 & T7). pose proof (reader_trans _ _ _ Rd2 Rd3) as (V1 & V2 & V3 & V4 & V5 & _).
  assert (HB : a + Z.of_nat (length cs1) + Z.of_nat (length cs2) = a + Z.of_nat (length ds)) by (rewrite <- EC, app_length; lia). rewrite HB in RR3, F3, A3.
  assert (EA : ds = [] /\ s_last_acked (sk x') = s_last_acked (sk x) \/ s_last_acked (sk x') = (a + Z.of_nat (length ds) - 1) mod 65536).
  { destruct cs2 as [|c2 cs2]; [|right; exact A3]. subst x'. rewrite app_nil_r in EC. destruct cs1 as [|c1 cs1]; [left; split; [congruence|subst s2; exact D7]|right; rewrite A2, EC; reflexivity]. }
  pose proof (f_seq _ _ _ _ F3) as HS. cbn [length Z.of_nat] in HS. rewrite Z.add_0_r in HS.
  assert (HLead : 1 <= lead x' <= 32635). { unfold lead in *. rewrite HS. destruct EA as [[-> ->]| ->]; [cbn [length Z.of_nat]; unfold a in *; lia|lia]. }
  exists x', y'. split; [|split; [|split; [|split; [|split; [lia|split; [lia|congruence]]]]]].
  - exists x1, ps, qs, y1, evs, rs. split; [exact SY|]. split; [exact NP|]. split; [exact R2|]. split; [exact R3|]. split; [exact O3|]. split; [exact L3|exact WX'].
  - split; [|split; [exact Y3|split; [|split; [congruence|split; congruence]]]].
    + split; [exact RX'|]. destruct F3 as [M1 M2 M3 M4 M5 M6 M7 M8 M9 M10 M11 M12 M13]. repeat (split; [assumption|]). split; [congruence|]. split; [exact M7|exact M6].
    + rewrite T1. rewrite (f_to _ _ _ _ F1). reflexivity.
  - unfold listens. fold (lead x'). rewrite HS. destruct RR3 as (RR & RD). split; [|split; [exact RD|lia]]. destruct RR as [RR|RR]; rewrite RR; [left; lia|right; reflexivity].
  - intros (B1 & B2 & B3). unfold listens. rewrite V4, V5, T5, D3. split; [|split; [exact B2|exact B3]]. destruct T7 as [T7|T7]; rewrite T7; [rewrite D5; exact B1|right; reflexivity].
Qed.
Lemma bursts_run ax ay n bs : forall x y, joined ax ay x y -> listens x y -> lead x <= 32635 -> s_congestion_timeout (sk x) <= 60000 -> (1380 <= n)%nat -> Forall (repairable (s_max_retries (sk x))) bs ->
  exists x' y', bursts ax ay n bs x y x' y' /\ joined ax ay x' y' /\ listens x' y' /\ (listens y x -> listens y' x').
Proof.
  induction bs as [|((ds & j) & kss) bs IH]; intros x y HJ HL HLe HC Hn HB; [exists x, y; split; [constructor|auto]|].
  destruct (tail_runs ax ay n ds j kss x y HJ HL HLe HC Hn (Forall_inv HB)) as (x1 & y1 & T1 & J1 & L1 & V1 & Le1 & C1 & M1).
  destruct (IH x1 y1 J1 L1 Le1 C1 Hn) as (x' & y' & B' & J' & L' & V'); [rewrite M1; exact (Forall_inv_tail HB)|]. exists x', y'. split; [econstructor; eassumption|]. auto.
Qed.

(** ** A reader that is stuck *)
(** The reader has acknowledged [m], and the head of its buffer has an older number: it will never move. *)
Definition stuck (k : socket) : Prop := match s_incoming_buffer k with [] => True | p :: _ => seq_nr p < s_ack_nr k end.
Lemma flush_stuck n s : s_pending_data (sk s) = [] -> stuck (sk s) -> 0 <= s_ack_nr (sk s) < 65535 -> flush_incoming_buffer n s = (Ret [], s).
Proof.
  intros EP HS HA. unfold flush_incoming_buffer, bind at 1, get_sk at 1. rewrite EP. cbn [is_nil negb]. unfold stuck in HS. destruct (s_incoming_buffer (sk s)) as [|p rest]; [reflexivity|].
  replace (s_ack_nr (sk s) =? seq_nr p) with false by lia. unfold bind at 1. unfold bind at 1. rewrite ck_u16_wraps by lia. rewrite u16_small by lia. unfold ret at 1. replace (_ =? seq_nr p) with false by lia. reflexivity.
Qed.
(** [y] between two reads, having read or buffered what it got. *)
Record still (y : st) : Prop := mkStill { l_reach : reachable y; l_state : s_state (sk y) = Connected; l_pend : s_pending_data (sk y) = []; l_retries : 0 < s_max_retries (sk y); l_in : w_in (wd y) = []; l_sends : all_sent y }.
Lemma stuck_one ax n c p sq m buf y : still y -> stuck (sk y) -> 0 <= s_ack_nr (sk y) < 65535 -> chunkp (s_receiver_connection_id (sk y)) sq c p -> 0 <= sq < 65536 -> (0 < length c <= 1380)%nat ->
  s_ack_nr (acked_sk p (sk y)) = m -> 0 <= m < 65535 -> reply_bitmap p (acked_sk p (sk y)) = [] -> s_last_dropped (sk y) <> sq -> insert_packet p (s_incoming_buffer (sk y)) = buf -> stuck (ss_ack_nr m (ss_incoming_buffer buf (sk y))) ->
  exists q y', run_op (ORecvFrom n) (arrive ax [p] y) = (Fail Pend, y') /\ sent_to ax [q] y y' /\ state_reply q (s_sender_connection_id (sk y)) (s_seq_nr (sk y)) m /\ still y' /\ reader (sk y) (sk y') /\
    s_ack_nr (sk y') = m /\ s_last_dropped (sk y') = s_last_dropped (sk y) /\ s_incoming_buffer (sk y') = buf.
Proof.
  intros [RY ES EP HM EI HX] HK0 HA0 HP Hsq Hc HA HM0 HBm HD HB HK. pose proof (reachable_ranges y RY) as NY. destruct (chunkp_facts _ _ _ _ HP Hsq (r_rcid _ NY) Hc) as (F1 & F2 & F3 & F4 & F5 & F6).
  set (ya := arrive ax [p] y). assert (RYa : reachable ya) by now apply arrive_reachable. assert (HI : w_in (wd ya) = [RxDgram p ax]) by (unfold ya, arrive; cbn [wd]; sproj; rewrite EI; reflexivity).
  assert (ER : exists q y', recv n ya = (Ret ([], ax), y') /\ w_sent (wd y') = w_sent (wd y) ++ [(ax, q)] /\ state_reply q (s_sender_connection_id (sk y)) (s_seq_nr (sk y)) m /\ w_in (wd y') = [] /\ w_send (wd y') = w_send (wd y) /\
    s_state (sk y') = Connected /\ s_pending_data (sk y') = [] /\ s_max_retries (sk y') = s_max_retries (sk y) /\ reader (sk y) (sk y') /\ s_ack_nr (sk y') = m /\ s_last_dropped (sk y') = s_last_dropped (sk y) /\ s_incoming_buffer (sk y') = buf).
  { rewrite (recv_first n p ax [] ya HI HM). change (BUF_SIZE + HEADER_SIZE)%nat with 1520%nat. rewrite (process_packet _ _ _ _ p PData _ F2 F3). unfold bind at 1. assert (HO : own_id (sk (rx_state ya)) p) by (right; exact F5). rewrite (handle_own _ p ax PData (rx_state ya) F3 (or_introl HO)).
    remember (noted p (rx_state ya)) as t eqn:Et.
    assert (EK : sk t = ss_their_delay (abs_diff (clock_now (rx_state ya)) (timestamp p)) (ss_remote_wnd_size (wnd_size p) (acked_sk p (sk y)))) by (rewrite Et; reflexivity).
    assert (Ewd : wd t = wd (ticked (rx_state ya))) by (rewrite Et; reflexivity). clear Et.
    assert (KS : s_state (sk t) = Connected /\ s_ack_nr (sk t) = m /\ s_pending_data (sk t) = [] /\ s_incoming_buffer (sk t) = s_incoming_buffer (sk y) /\ s_last_dropped (sk t) = s_last_dropped (sk y) /\ s_max_retries (sk t) = s_max_retries (sk y) /\ reader (sk y) (sk t) /\ reply_bitmap p (sk t) = []).
    { assert (EWp : wnd_size p = 0) by (destruct HP as (? & ? & ? & ->); rewrite wnd_wire; reflexivity). rewrite EK. unfold reader, reply_bitmap in *. sproj. rewrite EWp. rewrite !(acked_other s_state), !(acked_other s_pending_data), !(acked_other s_incoming_buffer), !(acked_other s_last_dropped), !(acked_other s_max_retries), !(acked_other s_connected_to),
        !(acked_other s_sender_connection_id), !(acked_other s_receiver_connection_id), !(acked_other s_seq_nr), !(acked_other s_last_acked) by reflexivity. rewrite (acked_other s_incoming_buffer) in HBm by reflexivity. auto 15. }
    destruct KS as (K1 & K2 & K3 & K4 & K5 & K6 & K7 & K8).
    unfold dispatch, bind at 1, get_sk at 1. rewrite K1. rewrite data_reply_full by (left; rewrite K2; exact HM0). rewrite K8, K1, K2. cbn [sstate_eqb].
    unfold answer, bind at 1, bind at 1. rewrite set_wnd_wire. cbn [h_type h_cid h_ts h_tsd h_wnd h_seq h_ack].
    match goal with |- context [udp_send ax ?q ?t] => set (r := q); set (t1 := t) end.
    assert (EX : tx_ok t1 = true) by (apply all_sent_ok; unfold all_sent, t1; cbn [ticked wd]; sproj; rewrite Ewd; exact HX).
    rewrite (send_ok_eq ax r t1 EX). cbn [try_ ret]. unfold bind at 1, get_sk at 1. change (sk (tx_state ax r t1)) with (sk t). rewrite K5.
    pose proof (r_ldrop _ NY) as HDr. replace (ptype_eqb PData PData && (0 <? u16 (seq_nr p - s_last_dropped (sk y)))) with true by (rewrite u16_eq, F4; cbn [ptype_eqb andb]; lia).
    unfold insert_into_buffer, bind at 1, upd_sk at 1. change (sk (tx_state ax r t1)) with (sk t). rewrite K4, HB. unfold bind at 1.
    rewrite flush_stuck by (sproj; rewrite ?K2; try assumption; unfold stuck in *; sproj; sproj_in HK; rewrite K2; exact HK). unfold ret.
    eexists r, _. split; [reflexivity|]. cbn [wd sk]. sproj. split; [|split; [|split; [|split]]].
    - unfold tx_state. rewrite EX. cbn [wd]. sproj. change (wd t1) with (sw_tick (S (w_tick (wd t))) (wd t)). sproj. rewrite Ewd. reflexivity.
    - pose proof K7 as (_ & V2 & _ & V4 & _). do 2 eexists. unfold r. rewrite V2, V4. reflexivity.
    - unfold tx_state. rewrite EX. cbn [wd]. sproj. change (wd t1) with (sw_tick (S (w_tick (wd t))) (wd t)). sproj. rewrite Ewd. unfold ticked, rx_state. cbn [wd]. sproj. rewrite HI. reflexivity.
    - unfold tx_state. rewrite EX. cbn [wd]. sproj. change (wd t1) with (sw_tick (S (w_tick (wd t))) (wd t)). sproj. rewrite Ewd. reflexivity.
    - unfold reader in *. sproj. auto 12. }
  destruct ER as (q & y' & E1 & L1 & Q1 & I1 & X1 & S1 & P1 & M1 & R1 & A1 & D1 & B1).
  assert (EF : recv_from n ya = (Fail Pend, y')).
  { unfold recv_from, bind at 1. rewrite (flush_stuck n ya EP HK0 HA0). unfold bind at 1, get_sk at 1. cbn [is_nil negb]. change (sk ya) with (sk y). rewrite ES. cbn [sstate_eqb]. unfold bind at 1, event_fuel. rewrite HI. cbn [length].
    change (loop 2 ?b tt ya) with (loop 2 (rbody n) tt ya). erewrite loop_step by (rewrite rbody_recv by exact ES; rewrite E1; reflexivity). cbn [loop]. unfold bind at 1. rewrite rbody_recv by exact S1. rewrite (recv_blocks n y' I1) by (rewrite M1; exact HM). reflexivity. }
  assert (O : run_op (ORecvFrom n) ya = (Fail Pend, y')) by (cbn [run_op]; unfold bind; rewrite EF; reflexivity).
  exists q, y'. split; [exact O|]. split; [exact L1|]. split; [exact Q1|]. split; [|auto]. constructor; try assumption; [eapply rc_op; [exact RYa|exact O|intros l; discriminate]|rewrite M1; exact HM|intros i; rewrite X1; apply HX].
Qed.
Lemma read_sharp ax n b c p y : at_ease y -> chunkp (s_receiver_connection_id (sk y)) (b mod 65536) c p -> (0 < length c <= 1380)%nat -> (1380 <= n)%nat -> ready b y ->
  exists q y1, run_op (ORecvFrom n) (arrive ax [p] y) = (Ret (VData c ax), y1) /\ sent_to ax [q] y y1 /\ at_ease y1 /\ reader (sk y) (sk y1) /\ ready (b + 1) y1 /\
    s_ack_nr (sk y1) = b mod 65536 /\ s_last_dropped (sk y1) = b mod 65536.
Proof.
  intros HY HP HC Hn HR. destruct (read_step ax n b c p y HY HP HC Hn HR) as (q & y1 & O & L & _ & H1 & H2 & H3). exists q, y1. repeat (split; [assumption|]).
  destruct HY as (RY & SY & PY & BY & WY & UY & MY & IY & TY). destruct HR as (HA & HD). pose proof (reachable_ranges y RY) as NY. pose proof (Z.mod_pos_bound b 65536 ltac:(lia)) as HB.
  destruct (chunkp_facts _ _ _ _ HP HB (r_rcid _ NY) HC) as (F1 & F2 & F3 & F4 & F5 & F6). set (ya := arrive ax [p] y) in *.
  destruct (recv_one n p c ax ya) as (y' & r & E2 & _ & _ & _ & _ & K2); [unfold ya, arrive; cbn [wd]; sproj; rewrite IY; reflexivity|exact SY|exact PY|exact BY|exact MY|exact TY|exact F2|exact F3
    |right; exact F5|exact F6|destruct c; [cbn in HC; lia|discriminate]|lia|rewrite F4; destruct HA as [HA|HA]; change (sk ya) with (sk y); rewrite HA; [left; lia|right; reflexivity]|rewrite F4; exact HD|exact NY|].
  rewrite (run_recv _ _ _ _ _ E2) in O. injection O as <-. rewrite K2. sproj. auto.
Qed.
Definition one_chunk_long (d : list byte) : Prop := (0 < length d <= 1380)%nat.
Lemma answers_run ax ay n d1 d2 k x y : joined ax ay x y -> listens x y -> one_chunk_long d1 -> one_chunk_long d2 -> (1380 <= n)%nat -> is_timeout k = true -> lead x <= 32767 -> 1 < s_max_retries (sk x) -> s_congestion_timeout (sk x) * 2 < 2 ^ 64 ->
  s_seq_nr (sk x) + 2 <= 65535 ->
  exists x' y', answers_lost ax ay n d1 d2 k x y x' y' /\ at_ease x' /\ s_connected_to (sk x') = ay /\ lead x' = 1 /\ s_seq_nr (sk x') = s_seq_nr (sk x) + 2 /\ s_sender_connection_id (sk x') = s_receiver_connection_id (sk y') /\ s_sender_connection_id (sk y') = s_receiver_connection_id (sk x') /\
    s_congestion_timeout (sk x') <= 60000 /\ still y' /\ s_ack_nr (sk y') = s_seq_nr (sk x') - 1 /\ s_last_dropped (sk y') = s_seq_nr (sk x) + 1 /\ exists p, s_incoming_buffer (sk y') = [p] /\ seq_nr p = s_seq_nr (sk x).
Proof.
  intros (HX & HY & AX & AY & I1 & I2) (LA & LD & LL) H1 H2 Hn Hk HLe HM HC HQ. pose proof HX as (RX & SX & PX & BX & WX & UX & MX & IX & TX).
  pose proof (reachable_ranges x RX) as NX. pose proof (r_seq _ NX) as QX. pose proof (r_cto _ NX) as CX. fold (lead x) in LL.
  pose proof (ease_flight ay x HX AX ltac:(lia)) as F0. remember (s_seq_nr (sk x)) as a eqn:Ea.
  destruct (says_runs ay [d1; d2] a [] x RX F0) as (ps & x1 & SY & NP & RX1 & F1 & S1 & W1).
  { constructor; [exact H1|constructor; [exact H2|constructor]]. } { left. rewrite WX. unfold ahead_of_last, one_chunk_long in *. cbn [removelast fold_right total]. lia. } { exists (a - lead x). split; [unfold lead; pose proof (r_lacked _ NX); lia|]. cbn [length]. lia. }
  cbn [app] in F1. rewrite WX in W1. cbn [app] in W1. destruct S1 as (D1 & D2 & D3 & D4 & D5 & D6 & D7). destruct ps as [|p1 [|p2 [|]]]; try discriminate NP.
  pose proof (f_laid _ _ _ _ F1) as HL. rewrite W1 in HL. destruct HL as (_ & P1 & _ & P2 & _). rewrite D1, I1 in P1, P2.
  destruct (read_sharp ax n a d1 p1 y HY P1 H1 Hn) as (q1 & y1 & O1 & L1 & Y1 & R1 & RR1 & A1 & B1). { unfold ready. replace (a mod 65536) with a by lia. auto. }
  pose proof R1 as (V1 & V2 & V3 & V4 & V5 & _). rewrite <- V3 in P2.
  destruct (read_sharp ax n (a + 1) d2 p2 y1 Y1 P2 H2 Hn RR1) as (q2 & y2 & O2 & L2 & Y2 & R2 & RR2 & A2 & B2). pose proof R2 as (U1 & U2 & U3 & U4 & U5).
  destruct (stays ay a d1 [d2] [k] x1 F1) as (rs & x2 & E3 & N3 & F3 & L3); [repeat constructor; exact Hk|rewrite D6; lia|rewrite D6; cbn [length]; change (2 ^ Z.of_nat 1) with 2; exact HC|cbn [length]; rewrite D4; lia|].
  destruct rs as [|p [|]]; try discriminate N3. pose proof (Forall_inv F3) as P3. rewrite D1, I1, <- V3, <- U3 in P3. replace (a mod 65536) with a in P3 by lia. replace ((a + 1) mod 65536) with (a + 1) in A2, B2 by lia.
  pose proof (gets_start x1 (f_in _ _ _ _ F1)) as G0. assert (HW1 : s_send_window (sk x1) <> []) by (rewrite W1; discriminate). pose proof (gets_pend _ _ _ _ _ G0 HW1 E3) as EF. cbn [map app] in EF.
  pose proof Y2 as (RY2 & SY2 & PY2 & BY2 & WY2 & UY2 & MY2 & IY2 & TY2). pose proof (r_rcid _ (reachable_ranges y2 RY2)) as IDY.
  destruct (chunkp_facts _ _ _ _ P3 ltac:(lia) IDY H1) as (Z1 & Z2 & Z3 & Z4 & _).
  assert (EAk : acked_sk p (sk y2) = sk y2) by (unfold acked_sk; rewrite Z4, A2, u16_eq; replace (_ =? 1) with false by lia; reflexivity).
  destruct (stuck_one ax n d1 p a (a + 1) [p] y2) as (q & y' & O4 & L4 & Q4 & T4 & R4 & A4 & B4 & C4).
  { constructor; assumption. } { unfold stuck. rewrite BY2. exact I. } { lia. } { exact P3. } { lia. } { exact H1. } { rewrite EAk. exact A2. } { lia. }
  { rewrite EAk. unfold reply_bitmap. rewrite BY2. destruct (_ <? _); reflexivity. } { lia. } { rewrite BY2. reflexivity. } { unfold stuck. sproj. lia. }
  pose proof R4 as (X1 & X2 & X3 & X4 & X5).
  assert (HQ' : state_reply q (s_receiver_connection_id (sk x1)) (s_seq_nr (sk y2)) ((a + Z.of_nat (length [d1])) mod 65536)).
  { cbn [length]. replace ((a + Z.of_nat 1) mod 65536) with (a + 1) by lia. rewrite D2, <- I2, <- V2, <- U2. exact Q4. }
  destruct (repair ay a [d1] d2 [] [k] q (s_seq_nr (sk y2)) x1 F1) as (rs' & x' & E5 & F5 & K5 & N5 & L5 & C5 & A5); [repeat constructor; exact Hk|rewrite D6; lia|rewrite D6; cbn [length]; change (2 ^ Z.of_nat 1) with 2; exact HC|cbn [length]; rewrite D4; lia|exact HQ'|apply (r_seq _ (reachable_ranges y2 RY2))|].
  cbn [map app length] in E5, F5, A5.
  assert (G5 : gets x1 [RxErr k; RxDgram q ay] x') by (change [RxErr k; RxDgram q ay] with ([] ++ [RxErr k; RxDgram q ay]); eapply gets_step; [exact G0|exact HW1|discriminate|exact E5]).
  assert (WX' : s_send_window (sk x') = []) by (pose proof (f_laid _ _ _ _ F5) as H; destruct (s_send_window (sk x')); [reflexivity|destruct H]).
  pose proof (run_flush _ _ (gets_done _ _ _ G5 WX')) as O5. assert (RX' : reachable x') by (eapply op_reachable; [|exact O5]; apply script_reachable; exact RX1).
  pose proof K5 as (T1 & T2 & T3 & TT4 & T5 & T6 & T8 & T7). pose proof (f_seq _ _ _ _ F5) as HS. cbn [length] in HS.
  assert (HS' : s_seq_nr (sk x') = a + 2) by (rewrite HS; lia).
  exists x', y'. split; [|split; [|split; [rewrite T1; apply (f_to _ _ _ _ F1)|split; [unfold lead; rewrite HS', A5; lia|split; [exact HS'|split; [congruence|split; [congruence|split; [lia|split; [exact T4|split; [lia|split; [congruence|]]]]]]]]]]].
  - exists x1, p1, p2, [q1; q2], y2, p, x2, q. split; [exact SY|]. split; [econstructor; [apply read_waits; exact HY|eassumption|eassumption|]; econstructor; [apply read_waits; exact Y1|eassumption|eassumption|]; constructor|]. split; [cbn [run_op]; unfold bind; rewrite EF; reflexivity|]. split; [exact L3|]. split; [exact O4|]. split; [exact L4|exact O5].
  - split; [exact RX'|]. destruct F5 as [M1 M2 M3 M4 M5 M6 M7 M8 M9 M10 M11 M12 M13]. repeat (split; [assumption|]). split; [lia|]. split; [exact M7|exact M6].
  - exists p. split; [exact C4|exact Z4].
Qed.
(** The stuck reader has acknowledged everything before [x]'s next number, and its buffer ends before it. *)
Record deaf (x y : st) : Prop := mkDeaf { e_still : still y; e_acked : s_ack_nr (sk y) = s_seq_nr (sk x) - 1; e_ldrop : 0 <= s_last_dropped (sk y) < s_seq_nr (sk x);
  e_buf : exists p rest q, s_incoming_buffer (sk y) = p :: rest /\ seq_nr p < s_ack_nr (sk y) /\ last_opt (p :: rest) = Some q /\ seq_nr q < s_seq_nr (sk x);
  e_ids : s_sender_connection_id (sk x) = s_receiver_connection_id (sk y) /\ s_sender_connection_id (sk y) = s_receiver_connection_id (sk x) }.
Lemma unheard_runs ax ay n d x y : at_ease x -> s_connected_to (sk x) = ay -> lead x = 1 -> s_congestion_timeout (sk x) <= 60000 -> deaf x y -> one_chunk_long d -> s_seq_nr (sk x) < 65535 ->
  exists x' y', unheard ax ay n d x y x' y' /\ at_ease x' /\ s_connected_to (sk x') = ay /\ lead x' = 1 /\ s_congestion_timeout (sk x') <= 60000 /\ deaf x' y' /\ s_seq_nr (sk x') = s_seq_nr (sk x) + 1.
Proof.
  intros HX AX HLe HC [HT HA HD (hd & rest & lst & EB & HH & EL & HL) (I1 & I2)] Hd HQ. pose proof HX as (RX & SX & PX & BX & WX & UX & MX & IX & TX).
  pose proof (reachable_ranges x RX) as NX. pose proof (r_seq _ NX) as QX. pose proof (r_cto _ NX) as CX. pose proof (ease_flight ay x HX AX ltac:(lia)) as F0. remember (s_seq_nr (sk x)) as a eqn:Ea.
  destruct (says_runs ay [d] a [] x RX F0) as (ps & x1 & SY & NP & RX1 & F1 & S1 & W1).
  { constructor; [exact Hd|constructor]. } { left. rewrite WX. cbn. lia. } { exists (a - lead x). split; [unfold lead in *; pose proof (r_lacked _ NX); lia|]. cbn [length]. lia. }
  cbn [app] in F1. rewrite WX in W1. cbn [app] in W1. destruct S1 as (D1 & D2 & D3 & D4 & D5 & D6 & D7). destruct ps as [|p [|]]; try discriminate NP.
  pose proof (f_laid _ _ _ _ F1) as HLd. rewrite W1 in HLd. destruct HLd as (_ & P1 & _). rewrite D1, I1 in P1. replace (a mod 65536) with a in P1 by lia.
  pose proof (l_reach _ HT) as RY. pose proof (reachable_ranges y RY) as NY. destruct (chunkp_facts _ _ _ _ P1 QX (r_rcid _ NY) Hd) as (Z1 & Z2 & Z3 & Z4 & _). pose proof (r_ack _ NY) as HAr.
  assert (EAk : acked_sk p (sk y) = ss_ack_nr a (sk y)) by (unfold acked_sk; rewrite Z4, HA, u16_eq; replace (_ =? 1) with true by lia; reflexivity).
  destruct (stuck_one ax n d p a a ((hd :: rest) ++ [p]) y) as (q & y' & O4 & L4 & Q4 & T4 & R4 & A4 & B4 & C4).
  { exact HT. } { unfold stuck. rewrite EB. exact HH. } { lia. } { exact P1. } { lia. } { exact Hd. } { rewrite EAk. reflexivity. } { lia. }
  { rewrite EAk. unfold reply_bitmap. sproj. rewrite Z4, Z.sub_diag. reflexivity. } { lia. } { rewrite EB. unfold insert_packet. rewrite EL. replace (seq_nr lst <? seq_nr p) with true by lia. reflexivity. } { unfold stuck. sproj. cbn [app]. lia. }
  pose proof R4 as (X1 & X2 & X3 & X4 & X5).
  pose proof (gets_start x1 (f_in _ _ _ _ F1)) as G0. assert (HW1 : s_send_window (sk x1) <> []) by (rewrite W1; discriminate).
  assert (HQ' : state_reply q (s_receiver_connection_id (sk x1)) (s_seq_nr (sk y)) ((a + Z.of_nat (length (@nil (list byte)))) mod 65536)).
  { cbn [length]. replace ((a + Z.of_nat 0) mod 65536) with a by lia. rewrite D2, <- I2. exact Q4. }
  destruct (repair ay a [] d [] [] q (s_seq_nr (sk y)) x1 F1) as (rs' & x' & E5 & F5 & K5 & N5 & L5 & C5 & A5); [constructor|rewrite D6; lia|rewrite D6; cbn [length Z.of_nat]; change (2 ^ 0) with 1; change (2^64) with 18446744073709551616; lia|cbn [length]; rewrite D4; lia|exact HQ'|apply (r_seq _ NY)|].
  cbn [map app length] in E5, F5, A5.
  assert (G5 : gets x1 [RxDgram q ay] x') by (change [RxDgram q ay] with ([] ++ [RxDgram q ay]); eapply gets_step; [exact G0|exact HW1|discriminate|exact E5]).
  assert (WX' : s_send_window (sk x') = []) by (pose proof (f_laid _ _ _ _ F5) as H; destruct (s_send_window (sk x')); [reflexivity|destruct H]).
  pose proof (run_flush _ _ (gets_done _ _ _ G5 WX')) as O5. assert (RX' : reachable x') by (eapply op_reachable; [|exact O5]; apply script_reachable; exact RX1).
  pose proof K5 as (T1 & T2 & T3 & TT4 & T5 & T6 & T8 & T7). pose proof (f_seq _ _ _ _ F5) as HS. cbn [length] in HS.
  assert (HS' : s_seq_nr (sk x') = a + 1) by (rewrite HS; lia).
  exists x', y'. split; [|split; [|split; [rewrite T1; apply (f_to _ _ _ _ F1)|split; [unfold lead; rewrite HS', A5; lia|split; [lia|split; [|exact HS']]]]]].
  - exists x1, p, q. split; [exact SY|]. split; [exact O4|]. split; [exact L4|]. split; [exact O5|exact WX'].
  - split; [exact RX'|]. destruct F5 as [M1 M2 M3 M4 M5 M6 M7 M8 M9 M10 M11 M12 M13]. repeat (split; [assumption|]). split; [lia|]. split; [exact M7|exact M6].
  - constructor; [exact T4|lia|lia| |split; congruence]. exists hd, (rest ++ [p]), p. split; [exact C4|]. split; [lia|]. split; [|lia]. unfold last_opt. cbn [length]. rewrite app_length. cbn [length].
    change (hd :: rest ++ [p]) with ((hd :: rest) ++ [p]). rewrite nth_error_app2 by (cbn [length]; lia). replace (S (length rest + 1) - 1 - length (hd :: rest))%nat with 0%nat by (cbn [length]; lia). reflexivity.
Qed.
Lemma all_unheard_runs ax ay n ds : forall x y, at_ease x -> s_connected_to (sk x) = ay -> lead x = 1 -> s_congestion_timeout (sk x) <= 60000 -> deaf x y -> Forall one_chunk_long ds -> s_seq_nr (sk x) + Z.of_nat (length ds) <= 65535 ->
  exists x' y', all_unheard ax ay n ds x y x' y'.
Proof.
  induction ds as [|d ds IH]; intros x y HX AX HL HC HD HF HQ; [exists x, y; constructor|]. cbn [length] in HQ. inversion_clear HF.
  destruct (unheard_runs ax ay n d x y HX AX HL HC HD H ltac:(lia)) as (x1 & y1 & U & X1 & A1 & L1 & C1 & D1 & Q1). destruct (IH x1 y1 X1 A1 L1 C1 D1 H0 ltac:(lia)) as (x' & y' & U'). exists x', y'. econstructor; eassumption.
Qed.
Lemma answers_all ax ay n d1 d2 ds k x y : joined ax ay x y -> listens x y -> Forall one_chunk_long (d1 :: d2 :: ds) -> (1380 <= n)%nat -> is_timeout k = true -> lead x <= 32767 -> 1 < s_max_retries (sk x) -> s_congestion_timeout (sk x) * 2 < 2 ^ 64 ->
  s_seq_nr (sk x) + 2 + Z.of_nat (length ds) <= 65535 -> exists x1 y1 x2 y2, answers_lost ax ay n d1 d2 k x y x1 y1 /\ all_unheard ax ay n ds x1 y1 x2 y2.
Proof.
  intros HJ HL HF Hn Hk HLe HM HC HQ. inversion_clear HF. inversion_clear H0. destruct (answers_run ax ay n d1 d2 k x y HJ HL H H1 Hn Hk HLe HM HC ltac:(lia)) as (x1 & y1 & A & X1 & C1 & L1 & Q1 & I1 & I2 & T1 & S1 & K1 & D1 & p & B1 & Z1).
  pose proof (r_seq _ (reachable_ranges x (proj1 (proj1 HJ)))) as QX.
  destruct (all_unheard_runs ax ay n ds x1 y1 X1 C1 L1 T1) as (x2 & y2 & U); [|exact H2|lia|exists x1, y1, x2, y2; auto].
  constructor; [exact S1|exact K1|lia| |split; assumption]. exists p, [], p. split; [exact B1|]. split; [lia|]. split; [reflexivity|lia].
Qed.
