(** Messages of many packets over a network that delivers (C86): the sender's window fills, acknowledgements are read while sending, everything arrives. *)
From Verif Require Export TransferProofs PrefixProofs EndProofs FixedProofs.
Require Import ZifyBool ZifyNat ZifyN.
Local Open Scope Z_scope.
Ltac Zify.zify_post_hook ::= Z.div_mod_to_equations.

Lemma arrive_app a ps qs s : arrive a (ps ++ qs) s = arrive a qs (arrive a ps s).
Proof. unfold arrive. cbn [sk wd]. sproj. now rewrite map_app, app_assoc. Qed.
Lemma arrive_nil a s : arrive a [] s = s.
Proof. unfold arrive. cbn [map]. rewrite app_nil_r. destruct s as [k w]. destruct w. reflexivity. Qed.

(** ** What is in flight *)
(** Packets numbered [a], [a+1], ... (not reduced), and for each the acknowledgement under way. *)
Fixpoint flying (cid sq a : Z) (fl rs : list packet) : Prop :=
  match fl, rs with
  | [], [] => True
  | p :: fl', r :: rs' => (seq_nr p = a mod 65536 /\ (20 <= length p <= 1400)%nat) /\ state_reply r cid sq (a mod 65536) /\ flying cid sq (a + 1) fl' rs'
  | _, _ => False
  end.
Lemma flying_app cid sq fl : forall a rs p r, flying cid sq a fl rs -> seq_nr p = (a + Z.of_nat (length fl)) mod 65536 -> (20 <= length p <= 1400)%nat ->
  state_reply r cid sq ((a + Z.of_nat (length fl)) mod 65536) -> flying cid sq a (fl ++ [p]) (rs ++ [r]).
Proof.
  induction fl as [|q fl IH]; intros a [|r0 rs] p r HF HP HL HR; cbn in HF; try contradiction.
  - cbn [length] in *. replace (a + Z.of_nat 0) with a in * by lia. cbn. auto.
  - destruct HF as (H1 & H2 & H3). cbn [app flying]. split; [exact H1|]. split; [exact H2|]. apply IH; auto; cbn [length] in *; replace (a + 1 + Z.of_nat (length fl)) with (a + Z.of_nat (S (length fl))) by lia; assumption.
Qed.
Lemma flying_total cid sq fl : forall a rs, flying cid sq a fl rs -> 20 * Z.of_nat (length fl) <= total fl <= 1400 * Z.of_nat (length fl) /\ length rs = length fl.
Proof.
  induction fl as [|p fl IH]; intros a [|r rs] H; cbn in H; try contradiction; [cbn; lia|]. destruct H as ((_ & H1) & _ & H2). apply IH in H2. cbn [total fold_right length]. fold (total fl).
  rewrite u32_small by (unfold packet_len, zlen; lia). unfold packet_len, zlen. lia.
Qed.
Lemma flying_long cid sq fl : forall a rs, flying cid sq a fl rs -> Forall long fl.
Proof. induction fl as [|p fl IH]; intros a [|r rs] H; cbn in H; try contradiction; constructor; [unfold long; lia|]. eapply IH. apply H. Qed.
(** The packets still queued: chunk by chunk, numbered from [b]. *)
Definition chunkp (cid sq : Z) (c : list byte) (p : packet) : Prop := exists ts tsd ak, p = wire (mkHdr PData cid ts tsd 0 sq ak) [] c.
Fixpoint laid (cid b : Z) (cs : list (list byte)) (ps : list packet) : Prop :=
  match cs, ps with
  | [], [] => True
  | c :: cs', p :: ps' => (0 < length c <= 1380)%nat /\ chunkp cid (b mod 65536) c p /\ laid cid (b + 1) cs' ps'
  | _, _ => False
  end.
Lemma laid_length cid cs : forall b ps, laid cid b cs ps -> length ps = length cs.
Proof. induction cs as [|c cs IH]; intros b [|p ps] H; cbn in *; try contradiction; [reflexivity|]. f_equal. eapply IH. apply H. Qed.

(** [N] packets are still to be sent after those in flight. *)
Record midway (ay : addr) (sq a : Z) (fl rs : list packet) (N : nat) (s : st) : Prop := mkMid {
  m_state : s_state (sk s) = Connected; m_pend : s_pending_data (sk s) = []; m_buf : s_incoming_buffer (sk s) = []; m_ret : 0 < s_max_retries (sk s);
  m_ok : ok s; m_send : all_sent s; m_to : s_connected_to (sk s) = ay; m_ids : 0 <= s_sender_connection_id (sk s) < 65536 /\ 0 <= s_receiver_connection_id (sk s) < 65536; m_sq : 0 <= sq < 65536;
  m_win : s_send_window (sk s) = fl; m_cur : s_curr_window (sk s) = total fl; m_in : w_in (wd s) = map (fun r => RxDgram r ay) rs;
  m_fly : flying (s_receiver_connection_id (sk s)) sq a fl rs;
  m_gap : exists la, s_last_acked (sk s) = la mod 65536 /\ la < a /\ a + Z.of_nat (length fl) + Z.of_nat N - 1 - la <= 32768 }.
(** What receiving acknowledgements leaves alone; [sq] is the number the peer's acknowledgements carry. *)
Definition kept (sq : Z) (k k' : socket) : Prop :=
  s_connected_to k' = s_connected_to k /\ s_sender_connection_id k' = s_sender_connection_id k /\ s_receiver_connection_id k' = s_receiver_connection_id k /\
  s_seq_nr k' = s_seq_nr k /\ s_last_dropped k' = s_last_dropped k /\ s_max_retries k' = s_max_retries k /\ s_unsent_queue k' = s_unsent_queue k /\ (s_ack_nr k' = s_ack_nr k \/ s_ack_nr k' = sq).
Lemma kept_refl sq k : kept sq k k. Proof. unfold kept. auto 12. Qed.
Lemma kept_trans sq a b c : kept sq a b -> kept sq b c -> kept sq a c.
Proof. unfold kept. intros (H1 & H2 & H3 & H4 & H5 & H6 & H8 & H7) (G1 & G2 & G3 & G4 & G5 & G6 & G8 & G7). repeat (split; [congruence|]). destruct G7 as [G7|G7]; [|now right]. rewrite G7. exact H7. Qed.

(** ** One acknowledgement *)
Lemma advance_head p fl s : s_send_window (sk s) = p :: fl -> seq_nr p = s_last_acked (sk s) -> s_curr_window (sk s) = total (p :: fl) -> 0 <= total fl -> total (p :: fl) < 4294967296 ->
  advance_send_window s = (Ret tt, mkSt (ss_curr_window (total fl) (ss_send_window fl (sk s))) (wd s)).
Proof.
  intros EW EQ EC H0 HL. unfold advance_send_window, bind at 1, get_sk at 1. rewrite EW. unfold position. rewrite EQ, Z.eqb_refl. cbn [Nat.add]. cbn [drop_acked]. unfold bind at 1, get_sk at 1. rewrite EW, EC.
  unfold bind at 1, upd_sk at 1. unfold bind at 1. cbn [total fold_right] in *. fold (total fl) in *. pose proof (u32_range (packet_len p)). replace (u32 (packet_len p) + total fl - u32 (packet_len p)) with (total fl) by lia. rewrite ck_u32_small by lia. reflexivity.
Qed.
Lemma state_head rec r p fl t : extensions r = Some [] -> ok t -> s_send_window (sk t) = p :: fl -> s_curr_window (sk t) = total (p :: fl) -> 0 <= total fl -> total (p :: fl) < 4294960000 -> seq_nr p = ack_nr r -> s_last_acked (sk t) <> ack_nr r ->
  exists s' k1, handle_state_packet rec r t = (Ret tt, s') /\ wd s' = wd (ticked (ticked t)) /\
    tuned (ss_duplicate_ack_count 1 (ss_last_acked_timestamp (clock_now t) (ss_last_acked (ack_nr r) (sk t)))) k1 /\ sk s' = ss_curr_window (total fl) (ss_send_window fl k1).
Proof.
  intros HE HK EW EC H0 HL EQ HA. unfold handle_state_packet, bind at 1. rewrite note_fresh by congruence.
  remember (mkSt (ss_duplicate_ack_count 1 (ss_last_acked_timestamp (clock_now t) (ss_last_acked (ack_nr r) (sk t)))) (wd (ticked t))) as t1 eqn:E1.
  assert (HK1 : ok t1) by (rewrite E1; exact HK). assert (W1 : wd (ticked t1) = wd (ticked (ticked t))) by (rewrite E1; reflexivity).
  assert (S1 : sk t1 = ss_duplicate_ack_count 1 (ss_last_acked_timestamp (clock_now t) (ss_last_acked (ack_nr r) (sk t)))) by (rewrite E1; reflexivity). clear E1. rewrite <- S1, <- W1.
  assert (Q1 : s_send_window (sk t1) = p :: fl) by (rewrite S1; exact EW). assert (Q2 : s_curr_window (sk t1) = total (p :: fl)) by (rewrite S1; exact EC).
  assert (Q7 : s_duplicate_ack_count (sk t1) = 1) by (rewrite S1; reflexivity). assert (Q8 : s_last_acked (sk t1) = ack_nr r) by (rewrite S1; reflexivity). clear S1 W1 HK EW EC HA.
  assert (EPos : forall f : packet -> bool, f p = true -> position f (p :: fl) = Some O) by (intros f Hf; unfold position; now rewrite Hf).
  unfold bind at 1, get_sk at 1. rewrite Q1. rewrite EPos by (rewrite EQ; apply Z.eqb_refl). unfold bind at 1.
  assert (HT : 0 <= total (p :: fl)) by (cbn [total fold_right]; fold (total fl); pose proof (u32_range (packet_len p)); lia).
  destruct (process_ack_runs 0 p t1 HK1 ltac:(rewrite Q1; reflexivity) ltac:(rewrite Q2; lia)) as (t2 & E2 & W2 & T2). rewrite E2.
  assert (Q3 : s_send_window (sk t2) = p :: fl /\ s_curr_window (sk t2) = total (p :: fl) /\ s_duplicate_ack_count (sk t2) = 1 /\ s_last_acked (sk t2) = ack_nr r).
  { destruct T2 as (? & ? & ? & ? & ? & ? & ? & ->). sproj. auto. }
  destruct Q3 as (Q3 & Q4 & Q5 & Q6). unfold bind at 1, get_sk at 1. rewrite Q3, Q5, HE. cbv zeta. cbn [is_nil negb andb Z.eqb Pos.eqb unwrap]. unfold bind at 1, ret at 1. cbn [process_extensions]. unfold bind at 1, ret at 1.
  unfold finish_state_packet, bind at 1, get_sk at 1. rewrite Q3, Q5. cbn [is_nil negb andb Z.eqb Pos.eqb]. unfold bind at 1, ret at 1. unfold bind at 1, ret at 1.
  rewrite (advance_head p fl t2) by (congruence || lia). eexists. exists (sk t2). split; [reflexivity|]. cbn [sk wd]. split; [exact W2|]. split; [exact T2|reflexivity].
Qed.
Lemma ack_step_n n ay sq a p fl r rs N s : midway ay sq a (p :: fl) (r :: rs) N s ->
  exists s', recv n s = (Ret ([], ay), s') /\ midway ay sq (a + 1) fl rs N s' /\ kept sq (sk s) (sk s') /\ w_sent (wd s') = w_sent (wd s) /\ s_last_acked (sk s') = a mod 65536 /\
    s_remote_wnd_size (sk s') = 1048576 /\ w_clock (wd s') = w_clock (wd s) /\ w_tick (wd s') = (3 + w_tick (wd s))%nat.
Proof.
  intros HM. pose proof HM as [M1 M2 M3 M4 M5 M6 M7 M8 M9 M10 M12 M13 M14 (la & M16 & M17 & M18)]. pose proof (flying_total _ _ _ _ _ M14) as [HT _].
  destruct M14 as ((P1 & P2) & (ts & tsd & Er) & HF). pose proof (flying_total _ _ _ _ _ HF) as [HT' _].
  pose proof (Z.mod_pos_bound a 65536 ltac:(lia)) as HA.
  assert (Rlen : length r = 20%nat) by (rewrite Er, wire_length; reflexivity).
  assert (Rval : packet_try_from (firstn (BUF_SIZE + HEADER_SIZE) r) = Some (Ok r)) by (change (BUF_SIZE + HEADER_SIZE)%nat with 1520%nat; rewrite firstn_all2 by lia; rewrite Er; apply wire_valid; constructor).
  assert (Rty : get_type r = Some PState) by (rewrite Er, get_type_wire; reflexivity).
  assert (Rcid : connection_id r = s_receiver_connection_id (sk s)) by (rewrite Er, cid_wire; cbn [h_cid]; apply u16_small; lia).
  assert (Rseq : seq_nr r = sq) by (rewrite Er, seq_wire; cbn [h_seq]; apply u16_small; lia).
  assert (Rack : ack_nr r = a mod 65536) by (rewrite Er, ack_wire; cbn [h_ack]; apply u16_small; lia).
  assert (Rwnd : wnd_size r = 1048576) by (rewrite Er, wnd_wire; reflexivity).
  assert (Rext : extensions r = Some []) by (rewrite Er, extensions_wire by constructor; reflexivity). clear Er.
  cbn [map] in M13. pose proof (recv_first n r ay _ s M13 M4) as ER. rewrite (process_packet _ _ _ _ r PState _ Rval Rty) in ER. unfold bind at 1 in ER.
  rewrite (handle_own _ r ay PState (rx_state s) Rty (or_introl (or_intror Rcid))) in ER.
  remember (noted r (rx_state s)) as t eqn:E. assert (Et : sk t = ss_their_delay (abs_diff (clock_now s) (timestamp r)) (ss_remote_wnd_size (wnd_size r) (acked_sk r (sk s)))) by (rewrite E; reflexivity).
  assert (Ew : wd (ticked (ticked t)) = wd (ticked (ticked (ticked (rx_state s))))) by (rewrite E; reflexivity).
  assert (HKt : ok t). { rewrite E. unfold noted. cbn [sk wd]. unfold acked_sk. destruct (_ =? 1); exact M5. }
  clear E. assert (K1 : s_state (sk t) = Connected /\ s_send_window (sk t) = p :: fl /\ s_curr_window (sk t) = total (p :: fl) /\ s_last_acked (sk t) = s_last_acked (sk s)).
  { rewrite Et. sproj. rewrite (acked_other s_state), (acked_other s_send_window), (acked_other s_curr_window), (acked_other s_last_acked) by reflexivity. auto. }
  destruct K1 as (K1 & K2 & K3 & K4). cbn [length] in HT, M18.
  assert (HNe : s_last_acked (sk t) <> ack_nr r) by (rewrite K4, M16, Rack; lia).
  destruct (state_head (recv_fuel (length (w_in (wd s)))) r p fl t Rext HKt K2 K3 ltac:(lia) ltac:(lia) ltac:(congruence) HNe) as (s' & k1 & E1 & W1 & T1 & S1).
  assert (ED : dispatch (recv_fuel (length (w_in (wd s)))) r PState ay t = (Ret None, s')) by (unfold dispatch, bind at 1, get_sk at 1; rewrite K1; unfold bind at 1; rewrite E1; reflexivity).
  rewrite ED in ER. clear ED E1.
  assert (KK : kept sq (sk s) (sk s') /\ s_state (sk s') = Connected /\ s_pending_data (sk s') = [] /\ s_incoming_buffer (sk s') = [] /\ s_send_window (sk s') = fl /\ s_curr_window (sk s') = total fl /\ s_last_acked (sk s') = a mod 65536 /\ s_remote_wnd_size (sk s') = 1048576).
  { rewrite S1. destruct T1 as (? & ? & ? & ? & ? & ? & ? & ->). unfold kept. sproj. rewrite Et. sproj.
    rewrite (acked_other s_state), (acked_other s_pending_data), (acked_other s_incoming_buffer), (acked_other s_unsent_queue), (acked_other s_max_retries), (acked_other s_connected_to), (acked_other s_sender_connection_id),
      (acked_other s_receiver_connection_id), (acked_other s_seq_nr), (acked_other s_last_dropped) by reflexivity. rewrite Rack.
    split; [repeat (split; [reflexivity|])|repeat (split; [assumption || reflexivity|]); first [reflexivity|exact Rwnd]]. unfold acked_sk. rewrite Rseq. destruct (_ =? 1); sproj; auto. }
  clear S1 T1 Et. destruct KK as (KK & N1 & N2 & N3 & N4 & N6 & N7 & N8). unfold answer in ER. unfold bind at 1, ret at 1 in ER. unfold bind at 1, get_sk at 1 in ER. cbn [ptype_eqb andb] in ER. unfold bind at 1, ret at 1 in ER. unfold bind at 1 in ER.
  rewrite flush_empty in ER by assumption. unfold ret in ER. pose proof (safe_call n s M5) as HS. unfold wp in HS. rewrite ER in HS. destruct HS as (Hc & Hok & _). cbn [snd] in Hc, Hok. exists s'. split; [exact ER|].
  destruct KK as (G1 & G2 & G3 & G4 & G5 & G6 & G8 & G7). split; [|split; [repeat (split; [assumption|]); assumption|split; [rewrite W1, Ew; reflexivity|split; [exact N7|split; [exact N8|rewrite W1, Ew; split; reflexivity]]]]].
  constructor; try assumption; try (rewrite ?G1, ?G2, ?G3, ?G6; assumption).
  - intros i. rewrite W1, Ew. apply M6.
  - rewrite W1, Ew. unfold rx_state, ticked. sproj. rewrite M13. reflexivity.
  - exists a. split; [exact N7|]. cbn [length] in M18. split; lia.
Qed.
Definition ack_step := ack_step_n BUF_SIZE.

(** ** Waiting for room in the window *)
Lemma midway_ticked ay sq a fl rs N s : midway ay sq a fl rs N s -> midway ay sq a fl rs N (ticked s).
Proof. intros [M1 M2 M3 M4 M5 M6 M7 M8 M9 M10 M11 M12 M13 M14]. constructor; assumption. Qed.
(** What the wait did, from [s] to [s'], with limit [m] and since time [t0]: it took acknowledgements of the oldest packets; it ended because there was room, or it took at least one, or the time was up at once. *)
Definition gated (m t0 a a' : Z) (fl fl' : list packet) (s s' : st) : Prop := (exists k, fl' = skipn k fl) /\
  (a' = a /\ s_last_acked (sk s') = s_last_acked (sk s) /\ s_remote_wnd_size (sk s') = s_remote_wnd_size (sk s) \/ s_last_acked (sk s') = (a' - 1) mod 65536 /\ s_remote_wnd_size (sk s') = 1048576) /\
  w_clock (wd s') = w_clock (wd s) /\
  (total fl' < m \/ (length fl' < length fl)%nat \/ 500000 <= ts_sub (clock_now s) t0).
Lemma gate_runs ay sq m t0 N fl : forall a rs s, 0 < m -> midway ay sq a fl rs N s ->
  exists a' fl' rs' s', gate recv m t0 s = (Ret tt, s') /\ midway ay sq a' fl' rs' N s' /\ a' + Z.of_nat (length fl') = a + Z.of_nat (length fl) /\ kept sq (sk s) (sk s') /\ w_sent (wd s') = w_sent (wd s) /\
    gated m t0 a a' fl fl' s s'.
Proof.
  intros a rs s Hm HM. unfold gate, bind at 1, event_fuel.
  assert (HF : (length rs < S (length (w_in (wd s))))%nat) by (rewrite (m_in _ _ _ _ _ _ _ HM), map_length; apply Nat.lt_succ_diag_r).
  revert HF. generalize (S (length (w_in (wd s)))). intros f. revert a rs s f HM. induction fl as [|p fl IH]; intros a rs s f HM HF.
  - exists a, [], rs, s. destruct f as [|f]; [lia|]. cbn [loop]. unfold bind at 1, gate_body, bind at 1, get_sk at 1. rewrite (m_cur _ _ _ _ _ _ _ HM). cbn [total fold_right]. replace (m <=? 0) with false by lia.
    split; [reflexivity|]. split; [exact HM|]. split; [reflexivity|]. split; [apply kept_refl|]. split; [reflexivity|]. split; [exists 0%nat; reflexivity|]. split; [left; auto|]. split; [reflexivity|]. left. exact Hm.
  - destruct f as [|f]; [lia|]. destruct rs as [|r rs]; [destruct (m_fly _ _ _ _ _ _ _ HM)|]. destruct (m <=? s_curr_window (sk s)) eqn:E1.
    2:{ exists a, (p :: fl), (r :: rs), s. cbn [loop]. unfold bind at 1, gate_body, bind at 1, get_sk at 1. rewrite E1. split; [reflexivity|]. split; [exact HM|]. split; [reflexivity|]. split; [apply kept_refl|]. split; [reflexivity|].
        split; [exists 0%nat; reflexivity|]. split; [left; auto|]. split; [reflexivity|]. left. rewrite <- (m_cur _ _ _ _ _ _ _ HM). lia. }
    destruct (ts_sub (clock_now s) t0 <? 500000) eqn:E2.
    2:{ exists a, (p :: fl), (r :: rs), (ticked s). cbn [loop]. unfold bind at 1, gate_body, bind at 1, get_sk at 1. rewrite E1. unfold bind at 1, now_microseconds. fold (clock_now s). fold (ticked s). rewrite E2.
        split; [reflexivity|]. split; [apply midway_ticked; exact HM|]. split; [reflexivity|]. split; [apply kept_refl|]. split; [reflexivity|].
        split; [exists 0%nat; reflexivity|]. split; [left; auto|]. split; [reflexivity|]. right. right. lia. }
    destruct (ack_step ay sq a p fl r rs N (ticked s) (midway_ticked _ _ _ _ _ _ _ HM)) as (s1 & ER & HM1 & HK1 & HS1 & HA1 & HW1 & HC1 & HT1).
    destruct (IH (a + 1) rs s1 f HM1 ltac:(cbn [length] in HF; lia)) as (a' & fl' & rs' & s' & EL & HM' & HN & HK' & HS' & (k & Hk) & HL & HC' & HG).
    exists a', fl', rs', s'. split; [|split; [exact HM'|split; [cbn [length]; lia|split; [eapply kept_trans; [exact HK1|exact HK']|split; [rewrite HS', HS1; reflexivity|]]]]].
    { erewrite loop_step; [exact EL|]. unfold gate_body, bind at 1, get_sk at 1. rewrite E1. unfold bind at 1, now_microseconds. fold (clock_now s). fold (ticked s). rewrite E2. unfold bind. rewrite ER. reflexivity. }
    split; [exists (S k); exact Hk|]. split; [right; destruct HL as [(-> & HL1 & HL2)|HL]; [split; [rewrite HL1, HA1; f_equal; lia|congruence]|exact HL]|]. split; [rewrite HC', HC1; reflexivity|].
    right. left. rewrite Hk, skipn_length. cbn [length]. lia.
Qed.

(** ** Sending one of the queued packets *)
Definition sbody (_ : unit) : M (unit + unit) :=
  s <- get_sk ;;
  match s_unsent_queue s with
  | [] => ret (inr tt)
  | p :: rest =>
    upd_sk (ss_unsent_queue rest) ;;;
    p' <- send_packet recv p ;;
    s <- get_sk ;;
    c <- ck_u32 641 (s_curr_window s + u32 (packet_len p')) ;;
    upd_sk (fun s => ss_send_window (s_send_window s ++ [p']) (ss_curr_window c s)) ;;;
    ret (inl tt)
  end.
Lemma send_eq s : send s = loop (S (length (s_unsent_queue (sk s)))) sbody tt s. Proof. reflexivity. Qed.
Lemma leads_sbody more x : leads more (sbody x) (sbody x).
Proof. unfold sbody. leads. apply leads_send_packet. intros. apply leads_call. Qed.
Lemma total_app l p : total (l ++ [p]) = total l + u32 (packet_len p).
Proof. induction l as [|q l IH]; cbn [app total fold_right]; [lia|]. fold (total (l ++ [p])) (total l). lia. Qed.
Lemma chunkp_facts cid sq c p : chunkp cid sq c p -> 0 <= sq < 65536 -> 0 <= cid < 65536 -> (0 < length c <= 1380)%nat ->
  length p = (20 + length c)%nat /\ packet_try_from (firstn 1520 p) = Some (Ok p) /\ get_type p = Some PData /\ seq_nr p = sq /\ connection_id p = cid /\ payload p = Some c.
Proof.
  intros (ts & tsd & ak & ->) HQ HC HL. assert (EL : length (wire (mkHdr PData cid ts tsd 0 sq ak) [] c) = (20 + length c)%nat) by (rewrite wire_length; reflexivity).
  split; [exact EL|]. split; [rewrite firstn_all2 by lia; apply wire_valid; constructor|]. split; [rewrite get_type_wire; reflexivity|]. split; [rewrite seq_wire; cbn [h_seq]; apply u16_small; lia|].
  split; [rewrite cid_wire; cbn [h_cid]; apply u16_small; lia|apply payload_wire; constructor].
Qed.
Lemma send_step ay sq a fl rs N p un c s : midway ay sq a fl rs (S N) s -> s_unsent_queue (sk s) = p :: un -> chunkp (s_sender_connection_id (sk s)) ((a + Z.of_nat (length fl)) mod 65536) c p -> (0 < length c <= 1380)%nat ->
  exists a' fl' rs' p' s1, sbody tt s = (Ret (inl tt), s1) /\ chunkp (s_sender_connection_id (sk s)) ((a + Z.of_nat (length fl)) mod 65536) c p' /\ w_sent (wd s1) = w_sent (wd s) ++ [(ay, p')] /\
    a' + Z.of_nat (length fl') = a + Z.of_nat (length fl) /\ kept sq (ss_unsent_queue un (sk s)) (sk s1) /\
    gated (limit (sk s)) (clock_now s) a a' fl fl' (ticked s) s1 /\
    forall q, state_reply q (s_receiver_connection_id (sk s)) sq ((a + Z.of_nat (length fl)) mod 65536) -> midway ay sq a' (fl' ++ [p']) (rs' ++ [q]) N (arrive ay [q] s1).
Proof.
  intros HM HU HP HC. set (b := a + Z.of_nat (length fl)) in *. pose proof (Z.mod_pos_bound b 65536 ltac:(lia)) as HB.
  set (t := mkSt (ss_unsent_queue un (sk s)) (wd s)).
  assert (HMt : midway ay sq a fl rs (S N) (ticked t)).
  { apply midway_ticked. destruct HM as [M1 M2 M3 M4 M5 M6 M7 M8 M9 M10 M12 M13 M14 M15]. constructor; try assumption.
    destruct M5 as (O1 & O2 & O3 & O4 & O5). unfold readable. unfold t. sproj. rewrite HU in O4. inversion O4. auto. }
  destruct (gate_runs ay sq (limit (sk t)) (clock_now t) (S N) fl a rs (ticked t) ltac:(unfold limit; lia) HMt) as (a' & fl' & rs' & s2 & EG & HM2 & HN & HK & HS & HG).
  pose proof HM2 as [M1 M2 M3 M4 M5 M6 M7 M8 M9 M10 M12 M13 M14 (la & M16 & M17 & M18)]. pose proof (flying_total _ _ _ _ _ M14) as [HT _].
  pose proof HK as (G1 & G2 & G3 & G4 & G5 & G6 & G8 & G7). change (sk (ticked t)) with (ss_unsent_queue un (sk s)) in *. sproj_in G1. sproj_in G2. sproj_in G3. sproj_in G8.
  rewrite <- G2 in HP. destruct (chunkp_facts _ _ _ _ HP HB (proj1 M8) HC) as (F1 & F2 & F3 & F4 & F5 & F6).
  set (p' := restamped p s2). assert (HP' : chunkp (s_sender_connection_id (sk s2)) (b mod 65536) c p').
  { destruct HP as (ts & tsd & ak & ->). unfold p', restamped. rewrite set_ts_wire, set_tsd_wire. cbn [h_type h_cid h_ts h_tsd h_wnd h_seq h_ack]. eexists _, _, _. reflexivity. }
  destruct (chunkp_facts _ _ _ _ HP' HB (proj1 M8) HC) as (F1' & _ & _ & F4' & _ & _).
  assert (HL : u32 (packet_len p') = 20 + zlen c) by (unfold packet_len, zlen; rewrite F1', u32_small by lia; lia).
  set (s3 := tx_state (s_connected_to (sk s2)) p' (ticked s2)).
  assert (ET : transmit p s2 = (Ret p', s3)).
  { apply transmit_eq; [|apply all_sent_ok; exact M6]. unfold ahead. rewrite F4, M16, !u16_eq. lia. }
  set (s1 := mkSt (ss_send_window (s_send_window (sk s3) ++ [p']) (ss_curr_window (total fl' + (20 + zlen c)) (sk s3))) (wd s3)).
  assert (EB : sbody tt s = (Ret (inl tt), s1)).
  { unfold sbody, bind at 1, get_sk at 1. rewrite HU. unfold bind at 1, upd_sk at 1. fold t. unfold bind at 1. rewrite send_packet_split. unfold bind at 1. rewrite EG, ET. unfold bind at 1, get_sk at 1.
    change (s_curr_window (sk s3)) with (s_curr_window (sk s2)). rewrite M12, HL. unfold bind at 1. rewrite ck_u32_small by (unfold zlen; lia). reflexivity. }
  exists a', fl', rs', p', s1. split; [exact EB|]. split; [rewrite <- G2; exact HP'|].
  assert (X : tx_ok (ticked s2) = true) by (apply all_sent_ok; exact M6).
  assert (W : w_sent (wd s1) = w_sent (wd s2) ++ [(ay, p')] /\ w_in (wd s1) = w_in (wd s2) /\ w_send (wd s1) = w_send (wd s2) /\ w_chk (wd s1) = w_chk (wd s2) /\ w_clock (wd s1) = w_clock (wd s2)).
  { unfold s1, s3, tx_state. rewrite X. cbn [wd]. sproj. rewrite M7. repeat split. }
  destruct W as (W1 & W2 & W3 & W4 & W5). split; [rewrite W1, HS; reflexivity|]. split; [exact HN|].
  split; [exact HK|]. split; [destruct HG as (HG1 & HG2 & HG3 & HG4); split; [exact HG1|split; [exact HG2|split; [rewrite W5; exact HG3|exact HG4]]]|].
  intros q HQ. rewrite <- G3 in HQ. fold b in HN. rewrite <- HN in HQ, F4'.
  constructor; try assumption.
  - unfold readable. change (w_chk (wd (arrive ay [q] s1))) with (w_chk (wd s1)). rewrite W4. change (sk (arrive ay [q] s1)) with (sk s1). destruct M5 as (O1 & O2 & O3 & O4 & O5). unfold s1. sproj. change (sk s3) with (sk s2).
    split; [exact O1|]. split; [exact O2|]. split; [apply Forall_app; split; [exact O3|constructor; [|constructor]; unfold long; lia]|]. split; [exact O4|]. intros _. rewrite M10, total_app, HL. split; [reflexivity|unfold zlen; lia].
  - intros i. change (w_send (wd (arrive ay [q] s1))) with (w_send (wd s1)). rewrite W3. apply M6.
  - change (s_send_window (sk s2) ++ [p'] = fl' ++ [p']). now rewrite M10.
  - change (total fl' + (20 + zlen c) = total (fl' ++ [p'])). now rewrite total_app, HL.
  - unfold arrive. cbn [wd]. sproj. rewrite W2, M13, map_app. reflexivity.
  - apply flying_app; [exact M14|exact F4'|lia|exact HQ].
  - exists la. split; [exact M16|]. split; [exact M17|]. rewrite app_length. cbn [length]. lia.
Qed.

(** ** Two ways to stay within reach of the acknowledgements *)
(** Either there are not too many packets in all ([N] are still to come), or no wait for room is over before it starts and no packet is very short: then what is in flight is limited by the window. *)
Definition inway (ay : addr) (sq a : Z) (fl rs : list packet) (s : st) : Prop :=
  midway ay sq a fl rs 1 s /\ Forall (fun p : packet => (33 <= length p)%nat) fl /\ Z.of_nat (length fl) <= 31776 /\ (exists la, s_last_acked (sk s) = la mod 65536 /\ a - 900 <= la < a) /\
  s_remote_wnd_size (sk s) <= 1048576 /\ prompt_clock (wd s).
Definition under (long : bool) (ay : addr) (sq a : Z) (fl rs : list packet) (N : nat) (s : st) : Prop := if long then inway ay sq a fl rs s else midway ay sq a fl rs N s.
Lemma under_midway long ay sq a fl rs N s : under long ay sq a fl rs N s -> midway ay sq a fl rs 0 s.
Proof.
  intros H. assert (H' : exists N', midway ay sq a fl rs N' s) by (destruct long; [exists 1%nat; apply H|exists N; exact H]). destruct H' as [N' []]. constructor; try assumption.
  destruct m_gap0 as (la & G1 & G2 & G3). exists la. split; [exact G1|]. split; [exact G2|]. cbn. lia.
Qed.
Lemma total_long fl : Forall (fun p : packet => (33 <= length p)%nat) fl -> Forall (fun p : packet => (length p <= 1400)%nat) fl -> 33 * Z.of_nat (length fl) <= total fl.
Proof.
  induction 1 as [|p fl H1 H2 IH]; intros HF; [cbn; lia|]. inversion HF; subst. specialize (IH ltac:(assumption)). cbn [total fold_right length]. fold (total fl). rewrite u32_small by (unfold packet_len, zlen; lia). unfold packet_len, zlen. lia.
Qed.
Lemma flying_short cid sq fl : forall a rs, flying cid sq a fl rs -> Forall (fun p : packet => (length p <= 1400)%nat) fl.
Proof. induction fl as [|p fl IH]; intros a [|r rs] H; cbn in H; try contradiction; constructor; [lia|]. eapply IH. apply H. Qed.
Lemma under_step long ay sq a fl rs N p un c s : under long ay sq a fl rs (S N) s -> (long = true -> (13 <= length c)%nat) ->
  s_unsent_queue (sk s) = p :: un -> chunkp (s_sender_connection_id (sk s)) ((a + Z.of_nat (length fl)) mod 65536) c p -> (0 < length c <= 1380)%nat ->
  exists a' fl' rs' p' s1, sbody tt s = (Ret (inl tt), s1) /\ chunkp (s_sender_connection_id (sk s)) ((a + Z.of_nat (length fl)) mod 65536) c p' /\ w_sent (wd s1) = w_sent (wd s) ++ [(ay, p')] /\
    a' + Z.of_nat (length fl') = a + Z.of_nat (length fl) /\ kept sq (ss_unsent_queue un (sk s)) (sk s1) /\
    forall q, state_reply q (s_receiver_connection_id (sk s)) sq ((a + Z.of_nat (length fl)) mod 65536) -> under long ay sq a' (fl' ++ [p']) (rs' ++ [q]) N (arrive ay [q] s1).
Proof.
  intros HM HLong HU HP HC. assert (HM' : exists N', midway ay sq a fl rs (S N') s /\ (long = false -> N' = N)) by (destruct long; [exists 0%nat; split; [apply HM|discriminate]|exists N; split; [exact HM|reflexivity]]).
  destruct HM' as (N' & HMN & EN). destruct (send_step ay sq a fl rs N' p un c s HMN HU HP HC) as (a' & fl' & rs' & p' & s1 & EB & HP' & HS & HN & HK & HG & HM1).
  exists a', fl', rs', p', s1. do 5 (split; [assumption|]). intros q HQ. specialize (HM1 q HQ). destruct long; [|rewrite <- (EN eq_refl); exact HM1]. clear EN. specialize (HLong eq_refl).
  destruct HM as (_ & HF & HT & (la & HL1 & HL2) & HR & HPa). destruct HG as ((k & Hk) & HG2 & HG3 & HG4).
  assert (HF' : Forall (fun p : packet => (33 <= length p)%nat) fl') by (rewrite Hk; rewrite <- (firstn_skipn k fl) in HF; apply Forall_app in HF; apply HF).
  pose proof (flying_short _ _ _ _ _ (m_fly _ _ _ _ _ _ _ HMN)) as HS0. assert (HS0' := HS0). rewrite <- (firstn_skipn k fl) in HS0'. apply Forall_app in HS0' as [_ HS0'].
  pose proof (Z.mod_pos_bound (a + Z.of_nat (length fl)) 65536 ltac:(lia)) as HB. destruct (chunkp_facts _ _ _ _ HP' HB (proj1 (m_ids _ _ _ _ _ _ _ HMN)) HC) as (F1 & _).
  assert (HL : u32 (packet_len p') = 20 + zlen c) by (unfold packet_len, zlen; rewrite F1, u32_small by lia; lia).
  assert (HTl : Z.of_nat (length fl') <= 31775).
  { destruct HG4 as [HG4|[HG4|HG4]]; [|lia|].
    - rewrite <- Hk in HS0'. pose proof (total_long _ HF' HS0') as HT1. unfold limit in HG4. lia.
    - exfalso. specialize (HPa (w_tick (wd s))). unfold clock_now in HG4. change (w_tick (wd (ticked s))) with (S (w_tick (wd s))) in HG4. change (w_clock (wd (ticked s))) with (w_clock (wd s)) in HG4. lia. }
  assert (HLA : exists la, s_last_acked (sk s1) = la mod 65536 /\ a' - 900 <= la < a').
  { destruct HG2 as [(-> & G1 & _)|(G1 & _)]; [exists la; split; [rewrite G1; exact HL1|lia]|exists (a' - 1); split; [exact G1|lia]]. }
  assert (HRm : s_remote_wnd_size (sk s1) <= 1048576).
  { destruct HG2 as [(_ & _ & G1)|(_ & G1)]; rewrite G1; [exact HR|lia]. }
  assert (HF1 : Forall (fun p : packet => (33 <= length p)%nat) (fl' ++ [p'])) by (apply Forall_app; split; [exact HF'|constructor; [lia|constructor]]).
  assert (HTt : Z.of_nat (length (fl' ++ [p'])) <= 31776) by (rewrite app_length; cbn [length]; lia).
  split; [|split; [exact HF1|split; [exact HTt|split; [exact HLA|split; [exact HRm|]]]]].
  - destruct HM1. constructor; try assumption. destruct HLA as (la' & G1 & G2). exists la'. split; [exact G1|]. split; [lia|]. lia.
  - unfold prompt_clock. change (wd (arrive ay [q] s1)) with (sw_in (w_in (wd s1) ++ map (fun p => RxDgram p ay) [q]) (wd s1)). sproj. rewrite HG3. exact HPa.
Qed.

(** ** The reader *)
Definition ready (b : Z) (y : st) : Prop := (s_ack_nr (sk y) = (b - 1) mod 65536 \/ s_ack_nr (sk y) = b mod 65536) /\ s_last_dropped (sk y) <> b mod 65536.
Definition reader (k k' : socket) : Prop := s_connected_to k' = s_connected_to k /\ s_sender_connection_id k' = s_sender_connection_id k /\ s_receiver_connection_id k' = s_receiver_connection_id k /\
  s_seq_nr k' = s_seq_nr k /\ s_last_acked k' = s_last_acked k /\ (s_remote_wnd_size k' = s_remote_wnd_size k \/ s_remote_wnd_size k' = 0).
Lemma reader_refl k : reader k k. Proof. unfold reader. auto 10. Qed.
Lemma reader_trans a b c : reader a b -> reader b c -> reader a c.
Proof. unfold reader. intros (H1 & H2 & H3 & H4 & H5 & H6) (G1 & G2 & G3 & G4 & G5 & G6). repeat (split; [congruence|]). destruct G6 as [->|G6]; [exact H6|right; exact G6]. Qed.
Lemma read_step ax n b c p y : at_ease y -> chunkp (s_receiver_connection_id (sk y)) (b mod 65536) c p -> (0 < length c <= 1380)%nat -> (1380 <= n)%nat -> ready b y ->
  exists q y1, run_op (ORecvFrom n) (arrive ax [p] y) = (Ret (VData c ax), y1) /\ sent_to ax [q] y y1 /\ state_reply q (s_sender_connection_id (sk y)) (s_seq_nr (sk y)) (b mod 65536) /\
    at_ease y1 /\ reader (sk y) (sk y1) /\ ready (b + 1) y1.
Proof.
  intros (RY & SY & PY & BY & WY & UY & MY & IY & TY) HP HC Hn (HA & HD). pose proof (reachable_ranges y RY) as NY. pose proof (Z.mod_pos_bound b 65536 ltac:(lia)) as HB.
  destruct (chunkp_facts _ _ _ _ HP HB (r_rcid _ NY) HC) as (F1 & F2 & F3 & F4 & F5 & F6).
  set (ya := arrive ax [p] y). assert (RYa : reachable ya) by now apply arrive_reachable.
  destruct (recv_one n p c ax ya) as (y' & r & E2 & Er & L2 & J2 & T2 & K2); [unfold ya, arrive; cbn [wd]; sproj; rewrite IY; reflexivity|exact SY|exact PY|exact BY|exact MY|exact TY|exact F2|exact F3
    |right; exact F5|exact F6|destruct c; [cbn in HC; lia|discriminate]|lia|rewrite F4; destruct HA as [HA|HA]; change (sk ya) with (sk y); rewrite HA; [left; lia|right; reflexivity]|rewrite F4; exact HD|exact NY|].
  pose proof (run_recv _ _ _ _ _ E2) as O2. pose proof (op_reachable _ _ _ _ RYa O2) as RY'.
  change (sk ya) with (sk y) in *. change (w_sent (wd ya)) with (w_sent (wd y)) in L2. change (w_send (wd ya)) with (w_send (wd y)) in T2. rewrite F4 in Er, K2.
  exists r, y'. split; [exact O2|]. split; [exact L2|]. split; [exact Er|]. split; [|split].
  - split; [exact RY'|]. rewrite K2. sproj. repeat (split; [assumption|]). intros i. rewrite T2. apply TY.
  - unfold reader. rewrite K2. sproj. repeat (split; [reflexivity|]). right. destruct HP as (ts & tsd & ak & ->). rewrite wnd_wire. reflexivity.
  - unfold ready. rewrite K2. sproj. split; [left; f_equal; lia|lia].
Qed.

Lemma read_waits n y : at_ease y -> run_op (ORecvFrom n) y = (Fail Pend, y).
Proof.
  intros (_ & SY & PY & BY & _ & _ & MY & IY & _). cbn [run_op]. unfold bind. rewrite (recv_from_first n y PY BY SY), (recv_waits n y IY MY). reflexivity.
Qed.
Lemma read_pends n y : at_ease y -> fst (run_op (ORecvFrom n) y) = Fail Pend.
Proof. intros H. now rewrite (read_waits n y H). Qed.

(** ** The whole message *)
Lemma prefix_firstn {A} (l X r : list A) : l = X ++ r -> X = firstn (length X) l.
Proof. intros ->. now rewrite firstn_app, Nat.sub_diag, firstn_all, app_nil_r. Qed.
Lemma leads_sloop more n : leads more (loop n sbody tt) (loop n sbody tt).
Proof. apply leads_loop; [intros x; apply leads_sbody|lia]. Qed.
Lemma bulk_loop long ax ay n M un : forall cs a fl rs s y, (1380 <= n)%nat -> (long = true -> Forall (fun c : list byte => (13 <= length c)%nat) cs) ->
  under long ay (s_seq_nr (sk y)) a fl rs (length un + M) s -> s_unsent_queue (sk s) = un -> laid (s_sender_connection_id (sk s)) (a + Z.of_nat (length fl)) cs un ->
  s_sender_connection_id (sk s) = s_receiver_connection_id (sk y) -> s_sender_connection_id (sk y) = s_receiver_connection_id (sk s) -> at_ease y -> ready (a + Z.of_nat (length fl)) y ->
  exists E ps s' y' a' fl' rs', loop (S (length un)) sbody tt (arrive ay E s) = (Ret tt, s') /\ under long ay (s_seq_nr (sk y)) a' fl' rs' M s' /\
    a' + Z.of_nat (length fl') = a + Z.of_nat (length fl) + Z.of_nat (length un) /\ kept (s_seq_nr (sk y)) (ss_unsent_queue [] (sk s)) (sk s') /\
    (un <> [] -> fl' <> []) /\ (un = [] -> s' = s) /\ w_sent (wd s') = w_sent (wd s) ++ map (pair ay) ps /\ read_each ax n ps cs E y y' /\ at_ease y' /\ reader (sk y) (sk y') /\
    ready (a + Z.of_nat (length fl) + Z.of_nat (length un)) y' /\
    (forall i, (i < length ps)%nat -> exists k, (i < k)%nat /\ w_sent (wd (snd (loop (S (length un)) sbody tt (arrive ay (firstn i E) s)))) = w_sent (wd s) ++ map (pair ay) (firstn k ps)).
Proof.
  induction un as [|p un IH]; intros cs a fl rs s y Hn HLo HM HU HL I1 I2 HY HR.
  - destruct cs; [|destruct HL]. exists [], [], s, y, a, fl, rs. rewrite arrive_nil. cbn [length map]. rewrite Z.add_0_r, app_nil_r. split; [cbn [loop]; unfold bind at 1, sbody, bind at 1, get_sk at 1; rewrite HU; reflexivity|].
    split; [exact HM|]. split; [reflexivity|]. split; [unfold kept; sproj; auto 12|]. split; [congruence|]. split; [reflexivity|]. split; [reflexivity|]. split; [constructor|]. split; [exact HY|]. split; [apply reader_refl|]. split; [exact HR|]. intros i Hi. lia.
  - destruct cs as [|c cs]; [destruct HL|]. destruct HL as (HC & HP & HL).
    destruct (under_step long ay (s_seq_nr (sk y)) a fl rs (length un + M) p un c s HM ltac:(intros HT; specialize (HLo HT); now inversion HLo) HU HP HC) as (a1 & fl1 & rs1 & p1 & s1 & EB & HP1 & HS1 & HN1 & HK1 & HM1).
    rewrite I1 in HP1. destruct (read_step ax n _ c p1 y HY HP1 HC Hn HR) as (q & y1 & ER & SR & HQ & HY1 & HRd & HR1). rewrite I2 in HQ. specialize (HM1 q HQ).
    pose proof HK1 as (G1 & G2 & G3 & G4 & G5 & G6 & G8 & G7). sproj_in G2. sproj_in G3. sproj_in G8. pose proof HRd as (D1 & D2 & D3 & D4 & D5 & _).
    assert (EN : a1 + Z.of_nat (length (fl1 ++ [p1])) = a + Z.of_nat (length fl) + 1) by (rewrite app_length; cbn [length]; lia).
    destruct (IH cs a1 (fl1 ++ [p1]) (rs1 ++ [q]) (arrive ay [q] s1) y1) as (E & ps & s' & y' & a' & fl' & rs' & EL & HM' & HN' & HK' & HF' & HZ' & HS' & HRs & HY' & HRd' & HR' & HCa);
      [exact Hn|intros HT; specialize (HLo HT); now inversion HLo|rewrite D4; exact HM1|exact G8|change (sk (arrive ay [q] s1)) with (sk s1); rewrite EN, G2; exact HL|change (sk (arrive ay [q] s1)) with (sk s1); congruence|change (sk (arrive ay [q] s1)) with (sk s1); congruence|exact HY1|rewrite EN; exact HR1|].
    rewrite EN in HN', HR'. rewrite D4 in HM', HK'. change (sk (arrive ay [q] s1)) with (sk s1) in HK'. change (w_sent (wd (arrive ay [q] s1))) with (w_sent (wd s1)) in HS', HCa. rewrite <- arrive_app in EL. cbn [app] in EL.
    assert (EA : forall l, sbody tt (arrive ay l s) = (Ret (inl tt), arrive ay l s1)).
    { intros l. exact (proj1 (leads_sbody (map (fun r => RxDgram r ay) l) tt) s _ s1 EB I). }
    assert (EF : loop (S (S (length un))) sbody tt (arrive ay (q :: E) s) = (Ret tt, s')) by (erewrite loop_step; [exact EL|apply EA]).
    assert (EW : w_sent (wd s') = w_sent (wd s) ++ map (pair ay) (p1 :: ps)) by (rewrite HS', HS1, <- app_assoc; reflexivity).
    exists (q :: E), (p1 :: ps), s', y', a', fl', rs'. cbn [length]. split; [exact EF|].
    split; [exact HM'|]. split; [lia|]. split.
    { eapply kept_trans; [|exact HK']. unfold kept in *. sproj_in HK1. sproj. intuition congruence. }
    split; [intros _ Q; subst fl'; destruct un; [rewrite (HZ' eq_refl) in HM'; pose proof (m_win _ _ _ _ _ _ _ (under_midway _ _ _ _ _ _ _ _ HM')) as Q; rewrite (m_win _ _ _ _ _ _ _ (under_midway _ _ _ _ _ _ _ _ HM1)) in Q; destruct fl1; discriminate|apply HF'; [discriminate|reflexivity]]|].
    split; [discriminate|]. split; [exact EW|]. split; [econstructor; [apply read_waits; exact HY|eassumption..]|]. split; [exact HY'|]. split; [eapply reader_trans; eassumption|].
    split; [replace (a + Z.of_nat (length fl) + Z.of_nat (S (length un))) with (a + Z.of_nat (length fl) + 1 + Z.of_nat (length un)) by lia; exact HR'|].
    intros [|i] Hi.
    + cbn [firstn]. rewrite arrive_nil. erewrite loop_step by exact EB.
      destruct (proj2 (proj2 (leads_sloop (map (fun r => RxDgram r ay) (q :: E)) (S (length un)))) s1) as [l Hl].
      change (ext (map (fun r => RxDgram r ay) (q :: E)) s1) with (arrive ay (q :: E) s1) in Hl. rewrite EL in Hl. cbn [snd] in Hl.
      destruct (proj1 (proj2 (leads_sloop [] (S (length un)))) s1) as [l2 Hl2]. rewrite EW, Hl2, HS1, <- !app_assoc in Hl. apply app_inv_head in Hl. rewrite app_assoc in Hl. apply prefix_firstn in Hl. 
      exists (length ([(ay, p1)] ++ l2)). split; [cbn; lia|]. rewrite Hl2, HS1, <- app_assoc, <- firstn_map, <- Hl. reflexivity.
    + cbn [firstn]. erewrite loop_step by apply EA. cbn [length] in Hi. destruct (HCa i ltac:(lia)) as (k & Hk & Hs). exists (S k). split; [lia|].
      rewrite <- arrive_app in Hs. cbn [app] in Hs. rewrite Hs, HS1, <- app_assoc. reflexivity.
Qed.

(** ** Flushing *)
Lemma flush_all ay sq fl : forall a rs s, midway ay sq a fl rs 0 s ->
  exists s', flush s = (Ret tt, s') /\ midway ay sq (a + Z.of_nat (length fl)) [] [] 0 s' /\ kept sq (sk s) (sk s') /\ w_sent (wd s') = w_sent (wd s) /\
    s_last_acked (sk s') = match fl with [] => s_last_acked (sk s) | _ => (a + Z.of_nat (length fl) - 1) mod 65536 end /\
    (s_remote_wnd_size (sk s') = s_remote_wnd_size (sk s) \/ s_remote_wnd_size (sk s') = 1048576).
Proof.
  intros a rs s HM. unfold flush, bind at 1, event_fuel.
  assert (HF : (length rs < S (length (w_in (wd s))))%nat) by (rewrite (m_in _ _ _ _ _ _ _ HM), map_length; apply Nat.lt_succ_diag_r).
  revert HF. generalize (S (length (w_in (wd s)))). intros f. revert a rs s f HM. induction fl as [|p fl IH]; intros a rs s f HM HF.
  - destruct rs; [|destruct (m_fly _ _ _ _ _ _ _ HM)]. exists s. destruct f as [|f]; [lia|]. cbn [loop]. unfold bind at 1, bind at 1, get_sk at 1. rewrite (m_win _ _ _ _ _ _ _ HM). cbn [is_nil length]. rewrite Z.add_0_r.
    split; [reflexivity|]. split; [exact HM|]. split; [apply kept_refl|]. split; [reflexivity|]. split; [reflexivity|]. left. reflexivity.
  - destruct f as [|f]; [lia|]. destruct rs as [|r rs]; [destruct (m_fly _ _ _ _ _ _ _ HM)|].
    destruct (ack_step ay sq a p fl r rs 0 s HM) as (s1 & ER & HM1 & HK1 & HS1 & HA1 & HW1 & _).
    destruct (IH (a + 1) rs s1 f HM1 ltac:(cbn [length] in HF; lia)) as (s' & EL & HM' & HK' & HS' & HA' & HW').
    exists s'. split; [|split; [|split; [|split; [|split]]]].
    + erewrite loop_step; [exact EL|]. unfold bind at 1, get_sk at 1. rewrite (m_win _ _ _ _ _ _ _ HM). cbn [is_nil]. unfold bind. rewrite ER. reflexivity.
    + replace (a + Z.of_nat (length (p :: fl))) with (a + 1 + Z.of_nat (length fl)) by (cbn [length]; lia). exact HM'.
    + eapply kept_trans; [exact HK1|exact HK'].
    + now rewrite HS', HS1.
    + rewrite HA'. destruct fl; [rewrite HA1; f_equal; cbn [length]; lia|f_equal; cbn [length]; lia].
    + right. destruct HW' as [HW'|HW']; congruence.
Qed.

(** ** From two ends at ease to two ends at ease *)
Lemma queue_laid cs : forall b k, Forall (fun c => 0 < length c <= 1380)%nat cs -> s_seq_nr k = b mod 65536 ->
  exists ps, laid (s_sender_connection_id k) b cs ps /\ fold_left (fun k c => queue_chunk c k) cs k = ss_seq_nr ((b + Z.of_nat (length cs)) mod 65536) (ss_unsent_queue (s_unsent_queue k ++ ps) k).
Proof.
  induction cs as [|c cs IH]; intros b k HF HK; cbn [fold_left].
  - exists []. split; [exact I|]. rewrite app_nil_r, Z.add_0_r, <- HK. now destruct k.
  - inversion HF; subst. destruct (IH (b + 1) (queue_chunk c k)) as (ps & H3 & H4); [assumption|unfold queue_chunk; sproj; rewrite u16_eq, HK; lia|].
    exists (chunk_packet k c :: ps). split.
    + cbn [laid]. split; [assumption|]. split; [|exact H3]. exists 0, 0, (s_ack_nr k). rewrite chunk_packet_wire, HK. reflexivity.
    + rewrite H4. unfold queue_chunk. sproj. rewrite <- app_assoc. cbn [app length]. replace (b + Z.of_nat (S (length cs))) with (b + 1 + Z.of_nat (length cs)) by lia. reflexivity.
Qed.
Lemma packets_chunks d : Z.of_nat (length (chunks 1380 d)) = packets d.
Proof. apply chunks_fuel_count. lia. Qed.
(** A clock and a window with which the sender stays within reach, a message without a very short packet. *)
Lemma read_each_env a n ps cs qs y y' : read_each a n ps cs qs y y' -> same_env y y'.
Proof.
  induction 1 as [y|p ps c cs q qs y y1 y2 _ H1 _ _ IH]; [apply same_env_refl|]. eapply same_env_trans; [|exact IH].
  pose proof (envfix_run_op (ORecvFrom n) (arrive a [p] y)) as H. rewrite H1 in H. exact H.
Qed.
Lemma chunks_fuel_short f : forall d : list byte, (length d <= f)%nat -> whole_packets d -> Forall (fun c : list byte => (13 <= length c)%nat) (chunks_fuel f 1380 d).
Proof.
  unfold whole_packets. induction f as [|f IH]; intros [|b d] HL HD; cbn [chunks_fuel]; [constructor|constructor|constructor|]. set (l := b :: d) in *.
  assert (H0 : (0 < length l)%nat) by (unfold l; cbn; lia). constructor.
  - rewrite firstn_length. destruct (Nat.le_gt_cases 1380 (length l)) as [H|H]; [lia|]. rewrite Nat.mod_small in HD by exact H. lia.
  - apply IH; [rewrite skipn_length; lia|]. rewrite skipn_length. destruct (Nat.le_gt_cases 1380 (length l)) as [H|H]; [|replace (length l - 1380)%nat with 0%nat by lia; left; reflexivity].
    replace (length l) with (length l - 1380 + 1 * 1380)%nat in HD by lia. rewrite Nat.mod_add in HD by lia. exact HD.
Qed.
Lemma chunks_short d : whole_packets d -> Forall (fun c : list byte => (13 <= length c)%nat) (chunks 1380 d).
Proof. apply chunks_fuel_short. lia. Qed.
Lemma delivery_gen (long : bool) ax ay d n x y : joined ax ay x y -> listens x y -> (if long then lead x <= 900 /\ whole_packets d /\ modest x else lead x + packets d <= 32769) -> (1380 <= n)%nat ->
  exists x' y', delivery ax ay d n x y x' y' /\ joined ax ay x' y' /\ listens x' y' /\ (listens y x -> listens y' x') /\ lead x' <= lead x /\ lead y' = lead y /\
    (long = true -> modest x') /\ (modest y -> modest y').
Proof.
  intros (HX & HY & AX & AY & I1 & I2) (HA & HD & HL) HP Hn. pose proof HX as (RX & SX & PX & BX & WX & UX & MX & IX & TX).
  pose proof (reachable_ranges x RX) as NX. pose proof (r_seq _ NX) as QX. pose proof (r_lacked _ NX) as LX. pose proof HY as (RY & _). pose proof (reachable_ranges y RY) as NY.
  fold (lead x) in HL. set (a := s_last_acked (sk x) + lead x). assert (EA : s_seq_nr (sk x) = a mod 65536) by (unfold a, lead; lia).
  assert (CX : s_curr_window (sk x) = 0) by (pose proof (reachable_inflight x RX) as H; unfold inflight in H; rewrite WX in H; exact H).
  assert (FC : Forall (fun c => 0 < length c <= 1380)%nat (chunks 1380 d)) by (apply Forall_forall; intros c Hc; apply (chunks_sizes 1380 d c); [lia|exact Hc]).
  destruct (queue_laid (chunks 1380 d) a (sk x) FC EA) as (un & HLd & EQ). rewrite UX in EQ. cbn [app] in EQ. pose proof (laid_length _ _ _ _ HLd) as LN. pose proof (packets_chunks d) as LP.
  set (k0 := fold_left (fun k c => queue_chunk c k) (chunks 1380 d) (sk x)) in *. set (x0 := mkSt k0 (wd x)).
  assert (OK0 : ok x0) by (apply (readable_queue (chunks 1380 d)); apply (reachable_ok x RX)).
  assert (HMn : forall N, lead x + Z.of_nat N <= 32769 -> midway ay (s_seq_nr (sk y)) (a + Z.of_nat (@length packet [])) [] [] N x0).
  { intros N HN. constructor; try exact OK0; try (change (sk x0) with k0; rewrite EQ; sproj); try assumption; try reflexivity.
    - exact (conj (r_scid _ NX) (r_rcid _ NX)).
    - exact (r_seq _ NY).
    - exists (s_last_acked (sk x)). split; [symmetry; apply Z.mod_small; exact LX|]. cbn [length]. unfold a. lia. }
  replace (a + Z.of_nat (@length packet [])) with a in HMn by (cbn [length]; lia).
  assert (HM : under long ay (s_seq_nr (sk y)) a [] [] (length un + 0) x0).
  { destruct long; [|apply HMn; rewrite Nat.add_0_r; lia]. destruct HP as (P1 & P2 & P3 & P4). split; [apply HMn; lia|]. split; [constructor|]. split; [cbn; lia|]. split; [|split; [change (sk x0) with k0; rewrite EQ; exact P3|exact P4]].
    exists (s_last_acked (sk x)). split; [change (sk x0) with k0; rewrite EQ; symmetry; apply Z.mod_small; exact LX|]. unfold a. lia. }
  assert (HRd : ready a y). { unfold ready. rewrite EA in HA, HD. split; [|exact HD]. destruct HA as [HA|HA]; [left; rewrite HA; lia|right; exact HA]. }
  destruct (bulk_loop long ax ay n 0 un (chunks 1380 d) a [] [] x0 y Hn ltac:(intros HT; rewrite HT in HP; apply chunks_short; apply HP) HM) as (E & ps & x1 & y' & a' & fl' & rs' & EL & HM1 & HN1 & HK1 & HF1 & HZ1 & HS1 & HRs & HY' & HRd' & HR' & HCa);
    [change (sk x0) with k0; rewrite EQ; reflexivity|change (sk x0) with k0; rewrite EQ; sproj; cbn [length]; rewrite Z.add_0_r; exact HLd
    |change (sk x0) with k0; rewrite EQ; exact I1|change (sk x0) with k0; rewrite EQ; exact I2|exact HY|cbn [length]; rewrite Z.add_0_r; exact HRd|].
  cbn [length] in HN1, HR'. rewrite Z.add_0_r in HN1, HR'.
  assert (ES : forall l, send_to d (arrive ay l x) = bind (loop (S (length un)) sbody tt) (fun _ => ret (zlen d)) (arrive ay l x0)).
  { intros l. unfold send_to, bind at 1, get_sk at 1. change (sk (arrive ay l x)) with (sk x). rewrite SX. cbn [sstate_eqb]. unfold bind at 1, upd_sk at 1. change (sk (arrive ay l x)) with (sk x). change CHUNK with 1380%nat.
    change (fold_left (fun s c => queue_chunk c s) (chunks 1380 d) (sk x)) with k0. change (mkSt k0 (wd (arrive ay l x))) with (arrive ay l x0). unfold bind at 1. rewrite send_eq. change (sk (arrive ay l x0)) with k0. rewrite EQ at 1. reflexivity. }
  assert (E1 : send_to d (arrive ay E x) = (Ret (zlen d), x1)) by (rewrite ES; unfold bind; rewrite EL; reflexivity).
  pose proof (run_send_to _ _ _ _ E1) as O1. pose proof (op_reachable _ _ _ _ (arrive_reachable ay E x RX) O1) as RX1.
  destruct (flush_all ay (s_seq_nr (sk y)) fl' a' rs' x1 (under_midway _ _ _ _ _ _ _ _ HM1)) as (x' & E2 & HM2 & HK2 & HS2 & HA2 & HW2). pose proof (run_flush _ _ E2) as O2. pose proof (op_reachable _ _ _ _ RX1 O2) as RX'.
  pose proof (kept_trans _ _ _ _ HK1 HK2) as HK. change (sk x0) with k0 in HK. rewrite EQ in HK. destruct HK as (G1 & G2 & G3 & G4 & G5 & G6 & G8 & G7). sproj_in G1. sproj_in G2. sproj_in G3. sproj_in G4. sproj_in G5. sproj_in G6. sproj_in G7. sproj_in G8.
  destruct HRd' as (D1 & D2 & D3 & D4 & D5 & D6). rewrite LN in *. rewrite LP in *.
  assert (LD : 1 <= lead x' <= lead x).
  { unfold lead at 1 2. rewrite G4, HA2. destruct fl' as [|p0 fl'].
    - destruct un as [|u un]; [|exfalso; apply HF1; [discriminate|reflexivity]]. rewrite (HZ1 eq_refl). change (s_last_acked (sk x0)) with (s_last_acked k0). rewrite EQ. sproj. unfold a. cbn [length] in LN. rewrite <- LP, <- LN. lia.
    - rewrite HN1. lia. }
  exists x', y'. split; [|split; [|split; [|split; [|split; [|split; [|split]]]]]].
  - exists x1, ps, (chunks 1380 d), E. split; [exact O1|]. split; [exact HS1|]. split; [exact HRs|]. split; [apply chunks_concat; apply Nat.lt_0_succ|]. split; [|split; [exact O2|split; [exact (m_win _ _ _ _ _ _ _ HM2)|unfold sent_to; rewrite HS2; cbn [map]; now rewrite app_nil_r]]].
    intros i Hi. destruct (HCa i Hi) as (k & Hk & Hs). exists k. split; [exact Hk|]. unfold sent_to. cbn [run_op]. unfold bind at 1. rewrite ES. unfold bind at 1. destruct (loop _ sbody tt (arrive ay (firstn i E) x0)) as [[[]|e] t]; exact Hs.
  - split; [|split; [exact HY'|]].
    + destruct HM2 as [M1 M2 M3 M4 M5 M6 M7 M8 M9 M10 M12 M13 M14 M15]. split; [exact RX'|]. repeat (split; [assumption|]). exact M6.
    + rewrite G1, G2, G3, D1, D2, D3. auto.
  - destruct HR' as (R1 & R2). unfold listens. fold (lead x'). rewrite G4. split; [|split; [exact R2|lia]]. destruct R1 as [R1|R1]; [left; rewrite R1; lia|right; exact R1].
  - intros (B1 & B2 & B3). unfold listens. rewrite D4, D5, G5. split; [|split; assumption]. destruct G7 as [G7|G7]; rewrite G7; [exact B1|right; reflexivity].
  - lia.
  - unfold lead. now rewrite D4, D5.
  - intros ->. destruct HP as (_ & _ & _ & P4). destruct HM1 as (_ & _ & _ & _ & HW1 & _). split; [destruct HW2 as [->| ->]; [exact HW1|apply Z.le_refl]|].
    pose proof (envfix_run_op (OSendTo d) (arrive ay E x)) as C1. rewrite O1 in C1. cbn [snd] in C1. pose proof (envfix_run_op OFlush x1) as C2. rewrite O2 in C2. cbn [snd] in C2. unfold prompt_clock. rewrite (proj1 C2), (proj1 C1). exact P4.
  - intros (P3 & P4). split; [destruct D6 as [->| ->]; [exact P3|discriminate]|]. unfold prompt_clock. rewrite (proj1 (read_each_env _ _ _ _ _ _ _ HRs)). exact P4.
Qed.
Lemma delivery_runs ax ay d n x y : joined ax ay x y -> listens x y -> lead x + packets d <= 32769 -> (1380 <= n)%nat ->
  exists x' y', delivery ax ay d n x y x' y' /\ joined ax ay x' y' /\ listens x' y' /\ (listens y x -> listens y' x') /\ lead x' <= lead x /\ lead y' = lead y.
Proof. intros H1 H2 H3 H4. destruct (delivery_gen false ax ay d n x y H1 H2 H3 H4) as (x' & y' & G1 & G2 & G3 & G4 & G5 & G6 & _). exists x', y'. auto 10. Qed.
(** Conversations of messages of any length. *)
Lemma chat_long ax ay ms : forall x y, joined ax ay x y -> listens x y -> lead x <= 900 -> modest x -> (listens y x /\ lead y <= 900 /\ modest y \/ Forall (fun m => fst (fst m) = true) ms) ->
  Forall (fun m => (1380 <= snd m)%nat /\ whole_packets (snd (fst m))) ms ->
  exists x' y', chat ax ay ms x y x' y' /\ joined ax ay x' y' /\ listens x' y' /\ (listens y x -> listens y' x').
Proof.
  induction ms as [|[[b d] n] ms IH]; intros x y HJ HL HX HQ HB HF; [exists x, y; split; [constructor|auto]|].
  inversion HF as [|? ? F12 F3]; subst. cbn in F12. destruct F12 as [F1 F2]. destruct b.
  - destruct (delivery_gen true ax ay d n x y HJ HL (conj HX (conj F2 HQ)) F1) as (x1 & y1 & E & HJ1 & HL1 & HB1 & LX & LY & Q1 & Q2).
    destruct (IH x1 y1 HJ1 HL1) as (x2 & y2 & T & HJ2 & HL2 & HB2); [lia|apply Q1; reflexivity|destruct HB as [(B1 & B2 & B3)|HB]; [left; split; [auto|split; [lia|auto]]|right; now inversion HB]|exact F3|].
    exists x2, y2. split; [eapply chat_there; eassumption|auto].
  - destruct HB as [(B1 & B2 & B3)|HB]; [|inversion HB; discriminate].
    destruct (delivery_gen true ay ax d n y x (joined_sym _ _ _ _ HJ) B1 (conj B2 (conj F2 B3)) F1) as (y1 & x1 & E & HJ1 & HL1 & HB1 & LY & LX & Q1 & Q2). apply joined_sym in HJ1.
    destruct (IH x1 y1 HJ1 (HB1 HL)) as (x2 & y2 & T & HJ2 & HL2 & HB2); [lia|apply Q2; exact HQ|left; split; [exact HL1|split; [lia|apply Q1; reflexivity]]|exact F3|].
    exists x2, y2. split; [eapply chat_back; eassumption|auto].
Qed.

Lemma has_room_le lx ly lx' ly' m : lx' <= lx -> ly' <= ly -> has_room lx ly m -> has_room lx' ly' m.
Proof. destruct m as [[b d] n]. intros H1 H2 (H3 & H4). split; [exact H3|]. destruct b; lia. Qed.
Lemma chat_runs ax ay ms : forall x y, joined ax ay x y -> listens x y -> (listens y x \/ Forall (fun m => fst (fst m) = true) ms) -> Forall (has_room (lead x) (lead y)) ms ->
  exists x' y', chat ax ay ms x y x' y' /\ joined ax ay x' y' /\ listens x' y' /\ (listens y x -> listens y' x').
Proof.
  induction ms as [|[[b d] n] ms IH]; intros x y HJ HL HB HF; [exists x, y; split; [constructor|auto]|].
  inversion HF as [|? ? F12 F3]; subst. cbn in F12. destruct F12 as [F1 F2]. destruct b.
  - destruct (delivery_runs ax ay d n x y HJ HL F2 F1) as (x1 & y1 & E & HJ1 & HL1 & HB1 & LX & LY).
    destruct (IH x1 y1 HJ1 HL1) as (x2 & y2 & T & HJ2 & HL2 & HB2); [destruct HB as [HB|HB]; [left; auto|right; now inversion HB]|eapply Forall_impl; [|exact F3]; intros m; apply has_room_le; lia|].
    exists x2, y2. split; [eapply chat_there; eassumption|auto].
  - destruct HB as [HB|HB]; [|inversion HB; discriminate].
    destruct (delivery_runs ay ax d n y x (joined_sym _ _ _ _ HJ) HB F2 F1) as (y1 & x1 & E & HJ1 & HL1 & HB1 & LY & LX). apply joined_sym in HJ1.
    destruct (IH x1 y1 HJ1 (HB1 HL)) as (x2 & y2 & T & HJ2 & HL2 & HB2); [left; exact HL1|eapply Forall_impl; [|exact F3]; intros m; apply has_room_le; lia|].
    exists x2, y2. split; [eapply chat_back; eassumption|auto].
Qed.
(** The packets of a message may also all be waiting when the reads begin. *)
Lemma read_at_once a n ps cs qs y y' : read_each a n ps cs qs y y' ->
  run_ops (repeat (ORecvFrom n) (length cs)) (arrive a ps y) = (map (fun c => Ret (VData c a)) cs, y') /\ sent_to a qs y y'.
Proof.
  induction 1 as [y|p ps c cs q qs y y1 y2 _ H1 H2 H3 [IH1 IH2]]; [rewrite arrive_nil; split; [reflexivity|unfold sent_to; cbn [map]; now rewrite app_nil_r]|].
  split; [|unfold sent_to in *; rewrite IH2, H2, <- app_assoc; reflexivity].
  assert (E : run_op (ORecvFrom n) (arrive a (p :: ps) y) = (Ret (VData c a), arrive a ps y1)).
  { change (p :: ps) with ([p] ++ ps). rewrite arrive_app. exact (proj1 (leads_run_op (map (fun r => RxDgram r a) ps) (ORecvFrom n)) _ _ _ H1 I). }
  cbn [length repeat run_ops]. rewrite E, IH1. reflexivity.
Qed.
Lemma handshake_leads ac al asv c0 s0 : untouched c0 -> untouched s0 -> exists c s, handshake ac al asv c0 s0 c s /\ joined ac asv c s /\ listens c s /\
  (1 <= lead s <= 32768 -> listens s c) /\ lead c = 1 /\ lead s = w_rand (wd s0) (S (w_rtick (wd s0))) mod 65536.
Proof.
  intros HC HS. destruct (handshake_runs ac al asv c0 s0 HC HS) as (c & s & H1 & H2 & H3 & H4 & H5 & H6 & _ & H7 & _). exists c, s. repeat (split; [assumption|]).
  assert (EL : lead s = s_seq_nr (sk s)) by (unfold lead; rewrite H4, H5; lia). split; [intros; apply H6; lia|]. split; [exact H7|]. rewrite EL. exact H5.
Qed.
