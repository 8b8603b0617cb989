(** The sending side (C30, C31, C34-C37, C42-C44). *)
From Verif Require Export RecvProofs.
From Coq Require Relations.Operators_Properties.
Require Import ZifyBool ZifyNat ZifyN.
Local Open Scope Z_scope.
Ltac Zify.zify_post_hook ::= Z.div_mod_to_equations.

(** ** C30: splitting *)
(** [ps] are data packets numbered [sq], [sq + 1], ... (16 bits) with the payloads [cs]. *)
Fixpoint numbered (cid ack sq : Z) (cs : list (list byte)) (ps : list packet) : Prop :=
  match cs, ps with
  | [], [] => True
  | c :: cs', p :: ps' =>
    packet_try_from p = Some (Ok p) /\ get_type p = Some PData /\ extensions p = Some [] /\ payload p = Some c /\
    seq_nr p = sq /\ connection_id p = cid /\ ack_nr p = ack /\ numbered cid ack ((sq + 1) mod 65536) cs' ps'
  | _, _ => False
  end.
Lemma queue_all cs : forall k, 0 <= s_seq_nr k < 65536 -> 0 <= s_ack_nr k < 65536 -> 0 <= s_sender_connection_id k < 65536 -> exists ps,
  numbered (s_sender_connection_id k) (s_ack_nr k) (s_seq_nr k) cs ps /\
  fold_left (fun k c => queue_chunk c k) cs k =
    ss_seq_nr ((s_seq_nr k + Z.of_nat (length cs)) mod 65536) (ss_unsent_queue (s_unsent_queue k ++ ps) k).
Proof.
  induction cs as [|c cs IH]; intros k HS HA HC; cbn [fold_left].
  - exists []. split; [exact I|]. rewrite app_nil_r, Z.add_0_r, Z.mod_small by lia. now destruct k.
  - pose proof (u16_range (s_seq_nr k + 1)) as HU. destruct (IH (queue_chunk c k) HU HA HC) as (ps & H1 & H2).
    exists (chunk_packet k c :: ps). split.
    + cbn [numbered]. rewrite chunk_packet_wire. rewrite get_type_wire, extensions_wire, payload_wire, seq_wire, cid_wire, ack_wire by constructor. cbn [h_type h_seq h_cid h_ack].
      rewrite !u16_small by lia. split; [apply wire_valid; constructor|]. repeat split; auto.
    + rewrite H2. unfold queue_chunk. sproj. rewrite <- app_assoc. cbn [length]. rewrite u16_eq, Zplus_mod_idemp_l. replace (s_seq_nr k + 1 + Z.of_nat (length cs)) with (s_seq_nr k + Z.of_nat (S (length cs))) by lia. reflexivity.
Qed.
Lemma send_to_splits d s : ranges (sk s) -> s_state (sk s) <> Closed -> exists ps,
  numbered (s_sender_connection_id (sk s)) (s_ack_nr (sk s)) (s_seq_nr (sk s)) (chunks 1380 d) ps /\
  send_to d s = (send ;;; ret (zlen d)) (mkSt (ss_seq_nr ((s_seq_nr (sk s) + Z.of_nat (length ps)) mod 65536) (ss_unsent_queue (s_unsent_queue (sk s) ++ ps) (sk s))) (wd s)) /\
  fold_left (fun k c => queue_chunk c k) (chunks 1380 d) (sk s) = ss_seq_nr ((s_seq_nr (sk s) + Z.of_nat (length ps)) mod 65536) (ss_unsent_queue (s_unsent_queue (sk s) ++ ps) (sk s)).
Proof.
  intros HR HS. destruct HR. destruct (queue_all (chunks 1380 d) (sk s) r_seq r_ack r_scid) as (ps & H1 & H2). exists ps. split; [exact H1|].
  assert (HL : length ps = length (chunks 1380 d)). { clear - H1. revert H1. generalize (s_seq_nr (sk s)), (s_ack_nr (sk s)), (s_sender_connection_id (sk s)). revert ps. induction (chunks 1380 d) as [|c cs IH]; intros [|p ps] sq ack cid; cbn; try tauto. intros (_ & _ & _ & _ & _ & _ & _ & H). f_equal. eapply IH; eauto. }
  rewrite HL. split; [|exact H2].
  unfold send_to, bind at 1, get_sk at 1. replace (sstate_eqb (s_state (sk s)) Closed) with false by (destruct (s_state (sk s)); try reflexivity; congruence).
  unfold bind at 1, upd_sk at 1. change CHUNK with 1380%nat. rewrite H2.
  reflexivity.
Qed.

(** ** C34: flush *)
(** The State packets among the datagrams of a script acknowledge [a]. *)
Definition acked_in (evs : list rx) (a : Z) : Prop := exists d src p, In (RxDgram d src) evs /\ packet_try_from (firstn 1520 d) = Some (Ok p) /\
  get_type p = Some PState /\ ack_nr p = a.
Definition Gin (evs : list rx) (p : packet) (src : addr) : Prop := exists d, In (RxDgram d src) evs /\ packet_try_from (firstn 1520 d) = Some (Ok p).
Lemma Gin_valid evs p src : Gin evs p src -> valid p.
Proof. intros (d & _ & H). apply parse_inv in H as [-> H]. now apply valid_utp in H. Qed.
Lemma Gin_pre s : reachable s -> opre (Gin (w_in (wd s))) W0 s.
Proof.
  intros HR. destruct (proj2 (opre0 s) (reachable_wins s HR)) as [[_ H1] H2]. split; [split; [|exact H1]|exact H2].
  intros d src p H H3. exists d. auto.
Qed.
(** Numbers [l1 ++ [a]] are forgotten because [a] was acknowledged. *)
Inductive cumulative (acked : Z -> Prop) : list Z -> list Z -> Prop :=
| cu_ack l1 a l2 : acked a -> cumulative acked (l1 ++ a :: l2) l2.
Lemma set_ts_seq t p : W0 p -> seq_nr (set_timestamp t p) = seq_nr p.
Proof. intros (h & pl & -> & _). now rewrite set_ts_wire, !seq_wire. Qed.
Lemma step_cumulative evs s s' : step (Gin evs) W0 s s' -> Forall W0 (s_send_window (sk s)) ->
  map seq_nr (s_send_window (sk s')) = map seq_nr (s_send_window (sk s)) \/
  cumulative (acked_in evs) (map seq_nr (s_send_window (sk s))) (map seq_nr (s_send_window (sk s'))).
Proof.
  intros H HW; destruct H; sproj; auto. destruct H; sproj; frame; auto.
  - left. rewrite H in *. cbn [map]. inversion HW; subst. now rewrite set_ts_seq.
  - right. pose proof (position_spec (seq_is (s_last_acked k)) (s_send_window k)) as HP. rewrite H in HP. destruct HP as (a & x & b & E & HL & Hx & HF).
    unfold seq_is in Hx. assert (Ex : seq_nr x = s_last_acked k) by lia. rewrite E, <- HL, skipn_past, map_app. cbn [map]. constructor. rewrite Ex.
    destruct H0 as (p & src & (d & H1 & H2) & H3 & H4). exists d, src, p. auto.
Qed.
Lemma steps_cumulative evs s s' : steps (Gin evs) W0 s s' -> pre (Gin evs) W0 s ->
  clos_refl_trans _ (cumulative (acked_in evs)) (map seq_nr (s_send_window (sk s))) (map seq_nr (s_send_window (sk s'))).
Proof.
  intros H. induction H as [s s' H|s|s s1 s2 H1 IH1 _ IH2]; intros HP.
  - destruct (step_cumulative evs s s' H (proj2 HP)) as [->|HC]; [apply rt_refl|now apply rt_step].
  - apply rt_refl.
  - eapply rt_trans; [now apply IH1|]. apply IH2. exact (steps_pre _ _ W0_ts _ _ H1 HP).
Qed.
Lemma cumulative_all acked l l' : clos_refl_trans _ (cumulative acked) l l' -> l' = [] ->
  forall l1 x l2, l = l1 ++ x :: l2 -> exists a, In a (x :: l2) /\ acked a.
Proof.
  intros H. apply Operators_Properties.clos_rt_rt1n in H. induction H as [l|l m l' H _ IH]; intros E l1 x l2 EL.
  - subst. destruct l1; discriminate.
  - destruct H as [k1 a k2 Ha]. specialize (IH E).
    (* does x lie in k1 ++ [a], or in k2? *)
    assert (HX : In a (x :: l2) \/ exists r, k2 = r ++ x :: l2).
    { clear - EL. revert k1 EL. induction l1 as [|y l1 IHl]; intros k1 EL.
      - left. destruct k1; cbn in EL; injection EL as <- <-; [now left|right; apply in_or_app; right; now left].
      - destruct k1 as [|z k1]; cbn in EL; injection EL as E1 E2.
        + right. now exists l1.
        + exact (IHl k1 E2). }
    destruct HX as [HX|[r ->]]; [now exists a|]. exact (IH r x l2 eq_refl).
Qed.
Lemma flush_acked s s' : reachable s -> flush s = (Ret tt, s') ->
  s_send_window (sk s') = [] /\ steps (Gin (w_in (wd s))) W0 s s' /\
  forall w1 p w2, s_send_window (sk s) = w1 ++ p :: w2 -> exists q, In q (p :: w2) /\ acked_in (w_in (wd s)) (seq_nr q).
Proof.
  intros HR H. pose proof (Gin_pre s HR) as HP.
  pose proof (flush_osteps (Gin (w_in (wd s))) W0 (Gin_valid _) W0_ts W0_tsd s s HP (osteps_refl _ _ s)) as HW. unfold wp in HW. rewrite H in HW. cbn in HW.
  destruct HW as [_ [E HS]]. split; [exact E|]. split; [exact HS|]. intros w1 p w2 EW.
  destruct (cumulative_all _ _ _ (steps_cumulative _ _ _ HS (proj1 HP)) ltac:(rewrite E; reflexivity) (map seq_nr w1) (seq_nr p) (map seq_nr w2)) as (a & Ha & Hk).
  { rewrite EW, map_app. reflexivity. }
  change (seq_nr p :: map seq_nr w2) with (map seq_nr (p :: w2)) in Ha. apply in_map_iff in Ha as (q & <- & Hq). exists q. auto.
Qed.
(** The window over a whole call, with the script's acknowledgements. *)
Lemma ostep_window_in evs s s' : ostep (Gin evs) W0 s s' -> window_change (acked_in evs) (s_send_window (sk s)) (s_send_window (sk s')).
Proof.
  intros H; destruct H; sproj; try constructor. destruct H; try constructor. destruct H; sproj; frame; try constructor.
  - rewrite H. constructor.
  - pose proof (position_spec (seq_is (s_last_acked k)) (s_send_window k)) as HP. rewrite H in HP. destruct HP as (a & x & b & E & HL & Hx & HF).
    unfold seq_is in Hx, HF. assert (Ex : seq_nr x = s_last_acked k) by lia. rewrite E, <- HL, skipn_past. constructor.
    + rewrite Ex. destruct H0 as (p & src & (d & H1 & H2) & H3 & H4). exists d, src, p. auto.
    + rewrite Ex. intros HI. apply in_map_iff in HI as (y & Ey & Hy). rewrite Forall_forall in HF. specialize (HF y Hy). lia.
Qed.
Lemma run_op_window_in o s v s' : reachable s -> run_op o s = (v, s') -> not_panic v ->
  clos_refl_trans _ (window_change (acked_in (w_in (wd s)))) (s_send_window (sk s)) (s_send_window (sk s')).
Proof.
  intros HR H HN.
  assert (HS : osteps (Gin (w_in (wd s))) W0 s s').
  { pose proof (run_op_osteps (Gin (w_in (wd s))) W0 (Gin_valid _) W0_ts W0_tsd o s (op_queue_ok_W0 _ _) (Gin_pre s HR)) as HW. unfold wp in HW. rewrite H in HW. cbn [fst snd] in HW.
    destruct v as [v|[k|l| |]]; cbn in HW; auto; [apply HW|]. now destruct (HN l). }
  revert HS. generalize (w_in (wd s)). intros evs HS. clear - HS. induction HS; [apply rt_step; now apply ostep_window_in|apply rt_refl|eapply rt_trans; eauto].
Qed.

(** ** C35: timeouts *)
Lemma ck_u64_fits line v s : 0 <= v < 2 ^ 64 -> ck_u64 line v s = (Ret v, s).
Proof. intros H. apply arith_fits; [lia|]. apply u64_small. lia. Qed.
(** The socket after the timer has been doubled and the window reset to one segment. *)
Definition backed_off (k : socket) : socket := ss_cwnd 1400 (ss_congestion_timeout (2 * s_congestion_timeout k) k).
Definition sent_ok (s s' : st) (xs : list (addr * packet)) : Prop := w_sent (wd s') = w_sent (wd s) ++ xs /\ w_in (wd s') = w_in (wd s).
Definition timer_fits (s : st) : Prop := 0 <= 2 * s_congestion_timeout (sk s) < 2 ^ 64.
Lemma timeout_start s : timer_fits s ->
  handle_receive_timeout s = (match s_send_window (sk s) with
    | [] => if sstate_eqb (s_state (sk s)) FinSent then send_fin else if negb (sstate_eqb (s_state (sk s)) New) then send_fast_resend_request else ret tt
    | p :: rest => t <- now_microseconds ;; upd_sk (ss_send_window (set_timestamp t p :: rest)) ;;; r <- udp_send (s_connected_to (sk s)) (set_timestamp t p) ;; try_ r
    end) (mkSt (backed_off (sk s)) (wd s)).
Proof.
  intros HT. unfold timer_fits in HT. unfold handle_receive_timeout, bind at 1, get_sk at 1. unfold bind at 1. rewrite ck_u64_fits by lia.
  unfold bind at 1, upd_sk at 1. unfold bind at 1, get_sk at 1. unfold backed_off. rewrite (Z.mul_comm 2). sproj. destruct (s_send_window (sk s)); reflexivity.
Qed.
Lemma timeout_resends p rest s : s_send_window (sk s) = p :: rest -> timer_fits s -> tx_ok s = true ->
  exists s', handle_receive_timeout s = (Ret tt, s') /\
    sk s' = ss_send_window (set_timestamp (clock_now s) p :: rest) (backed_off (sk s)) /\
    sent_ok s s' [(s_connected_to (sk s), set_timestamp (clock_now s) p)].
Proof.
  intros HW HT HX. rewrite timeout_start by exact HT. rewrite HW. unfold bind at 1, now_microseconds. unfold bind at 1, upd_sk at 1. unfold bind at 1. rewrite send_ok_eq by exact HX.
  eexists. split; [reflexivity|]. split; [reflexivity|]. unfold sent_ok, tx_state. match goal with |- context [tx_ok ?t] => change (tx_ok t) with (tx_ok s) end. rewrite HX. split; reflexivity.
Qed.
Lemma timeout_fin s : s_send_window (sk s) = [] -> s_state (sk s) = FinSent -> timer_fits s -> tx_ok s = true ->
  exists s', handle_receive_timeout s = (Ret tt, s') /\ sk s' = backed_off (sk s) /\
    sent_ok s s' [(s_connected_to (sk s), wire (mkHdr PFin (s_sender_connection_id (sk s)) (clock_now s) 0 0 (s_seq_nr (sk s)) (s_ack_nr (sk s))) [] [])].
Proof.
  intros HW HS HT HX. rewrite timeout_start by exact HT. rewrite HW, HS. cbn [sstate_eqb]. unfold send_fin, bind at 1, get_sk at 1. unfold bind at 1, now_microseconds. unfold bind at 1. rewrite send_ok_eq by exact HX.
  eexists. split; [reflexivity|]. split; [reflexivity|]. unfold sent_ok, tx_state. match goal with |- context [tx_ok ?t] => change (tx_ok t) with (tx_ok s) end. rewrite HX. split; [|reflexivity].
  rewrite packet_new_wire, set_cid_wire, set_seq_wire, set_ack_wire, set_ts_wire, set_type_wire. reflexivity.
Qed.
Definition ack_packet (k : socket) (t : Z) : packet := wire (mkHdr PState (s_sender_connection_id k) t (u32 (s_their_delay k)) 0 (s_seq_nr k) (s_ack_nr k)) [] [].
Lemma fast_resend_one s : exists s', fast_resend_packet s = (if match w_send (wd s) (w_stick (wd s)) with SendDrop => true | _ => false end then Fail Pend else Ret tt, s') /\
  sk s' = sk s /\ w_in (wd s') = w_in (wd s) /\ w_send (wd s') = w_send (wd s) /\ w_chk (wd s') = w_chk (wd s) /\
  w_sent (wd s') = w_sent (wd s) ++ (if tx_ok s then [(s_connected_to (sk s), ack_packet (sk s) (clock_now s))] else []).
Proof.
  unfold fast_resend_packet, bind, now_microseconds, get_sk, udp_send, tx_ok. sproj.
  rewrite packet_new_wire, set_type_wire, set_ts_wire, set_tsd_wire, set_cid_wire, set_seq_wire, set_ack_wire. cbn [h_type h_cid h_ts h_tsd h_wnd h_seq h_ack].
  destruct (w_send (wd s) (w_stick (wd s))); eexists; (split; [reflexivity|]); sproj; rewrite ?app_nil_r; repeat split; auto.
Qed.
Definition all_sent (s : st) : Prop := forall i, w_send (wd s) i = SendOk.
Lemma all_sent_ok s : all_sent s -> tx_ok s = true.
Proof. intros H. unfold tx_ok. now rewrite H. Qed.
Lemma timeout_acks s : s_send_window (sk s) = [] -> s_state (sk s) <> FinSent -> s_state (sk s) <> New -> timer_fits s -> all_sent s ->
  exists s' t1 t2 t3, handle_receive_timeout s = (Ret tt, s') /\ sk s' = backed_off (sk s) /\ w_send (wd s') = w_send (wd s) /\
    sent_ok s s' (map (fun t => (s_connected_to (sk s), ack_packet (sk s) t)) [t1; t2; t3]).
Proof.
  intros HW HF HN HT HX. rewrite timeout_start by exact HT. rewrite HW.
  replace (sstate_eqb (s_state (sk s)) FinSent) with false by (destruct (s_state (sk s)); try reflexivity; congruence).
  replace (sstate_eqb (s_state (sk s)) New) with false by (destruct (s_state (sk s)); try reflexivity; congruence). cbn [negb].
  unfold send_fast_resend_request. set (s0 := mkSt (backed_off (sk s)) (wd s)).
  assert (HA0 : all_sent s0) by exact HX.
  destruct (fast_resend_one s0) as (s1 & E1 & K1 & I1 & S1 & C1 & L1). rewrite (all_sent_ok _ HA0) in L1. rewrite (HA0 _) in E1.
  assert (HA1 : all_sent s1) by (intros i; rewrite S1; apply HA0).
  destruct (fast_resend_one s1) as (s2 & E2 & K2 & I2 & S2 & C2 & L2). rewrite (all_sent_ok _ HA1) in L2. rewrite (HA1 _) in E2.
  assert (HA2 : all_sent s2) by (intros i; rewrite S2; apply HA1).
  destruct (fast_resend_one s2) as (s3 & E3 & K3 & I3 & S3 & C3 & L3). rewrite (all_sent_ok _ HA2) in L3. rewrite (HA2 _) in E3.
  exists s3, (clock_now s0), (clock_now s1), (clock_now s2). unfold bind. rewrite E1, E2, E3. split; [reflexivity|]. split; [rewrite K3, K2; exact K1|]. split; [rewrite S3, S2; exact S1|].
  unfold sent_ok. split; [|rewrite I3, I2, I1; reflexivity]. rewrite L3, L2, L1, K2, K1, <- !app_assoc. reflexivity.
Qed.
Lemma timeout_new s : s_send_window (sk s) = [] -> s_state (sk s) = New -> timer_fits s -> handle_receive_timeout s = (Ret tt, mkSt (backed_off (sk s)) (wd s)).
Proof. intros HW HS HT. rewrite timeout_start by exact HT. rewrite HW, HS. reflexivity. Qed.

(** ** C36: giving up *)
Definition timer_ok (s : st) (n : nat) : Prop := w_chk (wd s) = false \/ 0 <= s_congestion_timeout (sk s) /\ s_congestion_timeout (sk s) * 2 ^ Z.of_nat n < 2 ^ 64.
Lemma timeout_frame s n : all_sent s -> timer_ok s (S n) -> exists s', handle_receive_timeout s = (Ret tt, s') /\
  s_state (sk s') = s_state (sk s) /\ s_max_retries (sk s') = s_max_retries (sk s) /\ s_connected_to (sk s') = s_connected_to (sk s) /\
  s_pending_data (sk s') = s_pending_data (sk s) /\ s_incoming_buffer (sk s') = s_incoming_buffer (sk s) /\ s_ack_nr (sk s') = s_ack_nr (sk s) /\ s_last_dropped (sk s') = s_last_dropped (sk s) /\
  w_in (wd s') = w_in (wd s) /\ all_sent s' /\ timer_ok s' n.
Proof.
  intros HX HT.
  assert (HS : exists c, handle_receive_timeout s = (match s_send_window (sk s) with
    | [] => if sstate_eqb (s_state (sk s)) FinSent then send_fin else if negb (sstate_eqb (s_state (sk s)) New) then send_fast_resend_request else ret tt
    | p :: rest => t <- now_microseconds ;; upd_sk (ss_send_window (set_timestamp t p :: rest)) ;;; r <- udp_send (s_connected_to (sk s)) (set_timestamp t p) ;; try_ r
    end) (mkSt (ss_cwnd MSS (ss_congestion_timeout c (sk s))) (wd s)) /\ (w_chk (wd s) = false \/ 0 <= c /\ c * 2 ^ Z.of_nat n < 2 ^ 64)).
  { exists (u64 (s_congestion_timeout (sk s) * 2)). unfold handle_receive_timeout, bind at 1, get_sk at 1. unfold bind at 1, ck_u64, arith.
    assert (HP : 0 < 2 ^ Z.of_nat n) by (apply Z.pow_pos_nonneg; lia).
    destruct HT as [HT|[H1 H2]]; [rewrite HT|].
    - cbn [andb]. split; [|now left]. unfold bind at 1, upd_sk at 1. unfold bind at 1, get_sk at 1. sproj. destruct (s_send_window (sk s)); reflexivity.
    - rewrite Nat2Z.inj_succ, Z.pow_succ_r in H2 by lia. assert (s_congestion_timeout (sk s) * 2 < 2 ^ 64) by nia.
      replace (w_chk (wd s) && _) with false by lia. split.
      + unfold bind at 1, upd_sk at 1. unfold bind at 1, get_sk at 1. sproj. destruct (s_send_window (sk s)); reflexivity.
      + right. rewrite u64_small by lia. split; [lia|]. rewrite <- Z.mul_assoc. exact H2. }
  destruct HS as (c & -> & HC). set (s0 := mkSt _ (wd s)).
  assert (HA0 : all_sent s0) by exact HX. assert (HC0 : timer_ok s0 n) by exact HC.
  destruct (s_send_window (sk s)) as [|p rest].
  - destruct (sstate_eqb _ FinSent); [|destruct (negb _)].
    + unfold send_fin, bind at 1, get_sk at 1. unfold bind at 1, now_microseconds. unfold bind at 1. rewrite send_ok_eq by (apply all_sent_ok, HA0).
      eexists. split; [reflexivity|]. unfold tx_state, all_sent. destruct (tx_ok _); sproj.
      all: repeat split; try exact HX; exact HC.
    + unfold send_fast_resend_request.
      destruct (fast_resend_one s0) as (s1 & E1 & K1 & I1 & S1 & C1 & L1). rewrite (HA0 _) in E1. assert (HA1 : all_sent s1) by (intros i; rewrite S1; apply HA0).
      destruct (fast_resend_one s1) as (s2 & E2 & K2 & I2 & S2 & C2 & L2). rewrite (HA1 _) in E2. assert (HA2 : all_sent s2) by (intros i; rewrite S2; apply HA1).
      destruct (fast_resend_one s2) as (s3 & E3 & K3 & I3 & S3 & C3 & L3). rewrite (HA2 _) in E3.
      exists s3. unfold bind. rewrite E1, E2, E3. assert (K : sk s3 = sk s0) by congruence. rewrite K. split; [reflexivity|]. repeat split; try reflexivity; [rewrite I3, I2, I1; reflexivity|intros i; rewrite S3; apply HA2|].
      unfold timer_ok. rewrite K, C3, C2, C1. exact HC0.
    + exists s0. repeat split; auto.
  - unfold bind at 1, now_microseconds. unfold bind at 1, upd_sk at 1. unfold bind at 1. rewrite send_ok_eq by (apply all_sent_ok, HA0).
    eexists. split; [reflexivity|]. unfold tx_state, all_sent. destruct (tx_ok _); sproj.
    all: repeat split; try exact HX; exact HC.
Qed.

Definition wait_body (retries : Z) : M (Z + (list byte * addr)) :=
  s <- get_sk ;;
  if s_max_retries s <=? retries then upd_sk (ss_state Closed) ;;; throw_se ConnectionTimedOut
  else
    r <- udp_recv (BUF_SIZE + HEADER_SIZE) ;;
    match r with
    | Ok x => ret (inr x)
    | Err k => if is_timeout k then handle_receive_timeout ;;; ret (inl (retries + 1)) else throw k
    end.
Lemma wait_datagram_eq s : wait_datagram s = loop (S (length (w_in (wd s)))) wait_body 0 s.
Proof. reflexivity. Qed.
(** What a run of timeouts leaves alone. *)
Definition idle_frame (s s' : st) : Prop :=
  s_state (sk s') = s_state (sk s) /\ s_max_retries (sk s') = s_max_retries (sk s) /\ s_connected_to (sk s') = s_connected_to (sk s) /\
  s_pending_data (sk s') = s_pending_data (sk s) /\ s_incoming_buffer (sk s') = s_incoming_buffer (sk s) /\ s_ack_nr (sk s') = s_ack_nr (sk s) /\ s_last_dropped (sk s') = s_last_dropped (sk s).
Lemma idle_trans a b c : idle_frame a b -> idle_frame b c -> idle_frame a c.
Proof. unfold idle_frame. intuition congruence. Qed.
Lemma wait_timeouts ks : forall s retries rest f, Forall (fun k => is_timeout k = true) ks -> w_in (wd s) = map RxErr ks ++ rest -> all_sent s -> timer_ok s (length ks) ->
  retries + Z.of_nat (length ks) <= s_max_retries (sk s) ->
  exists s', loop (length ks + f) wait_body retries s = loop f wait_body (retries + Z.of_nat (length ks)) s' /\
    idle_frame s s' /\ w_in (wd s') = rest /\ all_sent s'.
Proof.
  induction ks as [|k ks IH]; intros s retries rest f HK HI HA HT HM.
  - exists s. cbn [length Nat.add Z.of_nat]. rewrite Z.add_0_r. repeat split; auto.
  - inversion_clear HK. cbn [map app] in HI. cbn [length] in *.
    set (s1 := mkSt (sk s) (sw_in (map RxErr ks ++ rest) (wd s))).
    destruct (timeout_frame s1 (length ks)) as (s2 & E & F1 & F2 & F3 & F4 & F5 & F6 & F7 & F8 & HA2 & HT2); [exact HA|exact HT|].
    change (sk s1) with (sk s) in *. change (w_in (wd s1)) with (map RxErr ks ++ rest) in F8.
    destruct (IH s2 (retries + 1) rest f) as (s3 & E3 & I3 & R3 & A3); auto; [rewrite F2; lia|].
    exists s3. split; [|split; [|now split]].
    + cbn [Nat.add loop]. unfold bind at 1, wait_body at 1, bind at 1, get_sk at 1.
      replace (s_max_retries (sk s) <=? retries) with false by lia. unfold bind at 1, udp_recv. rewrite HI. fold s1. rewrite H. unfold bind at 1. rewrite E. unfold ret at 1.
      rewrite E3. f_equal. lia.
    + eapply idle_trans; [|exact I3]. repeat split; assumption.
Qed.
Lemma wait_gives_up ks rest s : Forall (fun k => is_timeout k = true) ks -> w_in (wd s) = map RxErr ks ++ rest -> all_sent s -> timer_ok s (length ks) ->
  Z.of_nat (length ks) = s_max_retries (sk s) ->
  exists s', wait_datagram s = (Fail (Throw KTimedOut), s') /\ s_state (sk s') = Closed /\ w_in (wd s') = rest.
Proof.
  intros HK HI HA HT HM. rewrite wait_datagram_eq, HI, app_length, map_length.
  replace (S (length ks + length rest)) with (length ks + S (length rest))%nat by lia.
  destruct (wait_timeouts ks s 0 rest (S (length rest)) HK HI HA HT) as (s' & E & (F1 & F2 & _) & R & _); [lia|].
  rewrite E. cbn [loop]. unfold bind at 1, wait_body, bind at 1, get_sk at 1. replace (s_max_retries (sk s') <=? 0 + Z.of_nat (length ks)) with true by lia.
  eexists. split; [reflexivity|]. split; [reflexivity|exact R].
Qed.
Lemma wait_goes_on ks rest s : Forall (fun k => is_timeout k = true) ks -> w_in (wd s) = map RxErr ks ++ rest -> all_sent s -> timer_ok s (length ks) ->
  Z.of_nat (length ks) < s_max_retries (sk s) ->
  (rest = [] -> exists s', wait_datagram s = (Fail Pend, s') /\ idle_frame s s') /\
  (forall d src more, rest = RxDgram d src :: more -> exists s', wait_datagram s = (Ret (firstn (BUF_SIZE + HEADER_SIZE) d, src), s') /\ idle_frame s s' /\ w_in (wd s') = more /\ all_sent s').
Proof.
  intros HK HI HA HT HM. rewrite wait_datagram_eq, HI, app_length, map_length.
  replace (S (length ks + length rest)) with (length ks + S (length rest))%nat by lia.
  destruct (wait_timeouts ks s 0 rest (S (length rest)) HK HI HA HT) as (s1 & E & F & R & A); [lia|].
  rewrite E. cbn [loop]. destruct F as (F1 & F2 & F3).
  split; [intros E1|intros d src more E1]; unfold bind at 1, wait_body at 1, bind at 1, get_sk at 1; (replace (s_max_retries (sk s1) <=? 0 + Z.of_nat (length ks)) with false by lia); rewrite E1 in R.
  - unfold bind, udp_recv. rewrite R. exists s1. split; [reflexivity|]. repeat split; try apply F3; assumption.
  - unfold bind, udp_recv. rewrite R. unfold ret. eexists. split; [reflexivity|]. split; [repeat split; try apply F3; assumption|]. split; [reflexivity|exact A].
Qed.

(** ** C42: the gate of [send_packet] *)
Definition limit (k : socket) : Z := Z.max 2800 (Z.min (s_cwnd k) (s_remote_wnd_size k)).
Definition gate_body (rec : nat -> M (list byte * addr)) (m t0 : Z) (_ : unit) : M (unit + unit) :=
  s <- get_sk ;;
  if m <=? s_curr_window s then
    now' <- now_microseconds ;;
    if ts_sub now' t0 <? 500000 then rec BUF_SIZE ;;; ret (inl tt) else ret (inr tt)
  else ret (inr tt).
Definition gate rec (m t0 : Z) : M unit := fuel <- event_fuel ;; loop fuel (gate_body rec m t0) tt.
Definition transmit (p : packet) : M packet :=
  s <- get_sk ;;
  if u16 (s_last_acked s - seq_nr p) <? u16 (seq_nr p - s_last_acked s) then ret p
  else
    t <- now_microseconds ;;
    let p' := set_timestamp_difference (s_their_delay s) (set_timestamp t p) in
    r <- udp_send (s_connected_to s) p' ;; try_ r ;;; ret p'.
Lemma send_packet_split rec p s : send_packet rec p s = (gate rec (limit (sk s)) (clock_now s) ;;; transmit p) (ticked s).
Proof. reflexivity. Qed.
(** When the gate lets a packet pass: few enough bytes in flight, or the patience has run out by the last clock reading. *)
Definition gate_passed (m t0 : Z) (s : st) : Prop :=
  s_curr_window (sk s) < m \/ exists t, s = ticked t /\ 500000 <= clock_now t - t0.
Lemma gate_pass rec m t0 s s' : gate rec m t0 s = (Ret tt, s') -> gate_passed m t0 s'.
Proof.
  unfold gate, bind, event_fuel. generalize (S (length (w_in (wd s)))). intros f. revert s. induction f as [|f IH]; intros s H; [discriminate|].
  cbn [loop] in H. unfold bind at 1, gate_body at 1, bind at 1, get_sk at 1 in H. destruct (m <=? s_curr_window (sk s)) eqn:E1.
  - unfold bind at 1, now_microseconds at 1 in H. fold (clock_now s) in H. fold (ticked s) in H. destruct (ts_sub (clock_now s) t0 <? 500000) eqn:E2.
    + unfold bind at 1 in H. destruct (rec BUF_SIZE (ticked s)) as [[x|e] s1]; [|discriminate]. cbn in H. now apply IH in H.
    + cbn in H. injection H as <-. right. exists s. unfold ts_sub in E2. split; [reflexivity|lia].
  - cbn in H. injection H as <-. left. lia.
Qed.
Lemma gate_open rec m t0 s : s_curr_window (sk s) < m -> gate rec m t0 s = (Ret tt, s).
Proof. intros H. unfold gate, bind at 1, event_fuel. cbn [loop]. unfold bind at 1, gate_body, bind at 1, get_sk at 1. replace (m <=? _) with false by lia. reflexivity. Qed.
Lemma gate_impatient rec m t0 s : m <= s_curr_window (sk s) -> 500000 <= clock_now s - t0 -> gate rec m t0 s = (Ret tt, ticked s).
Proof.
  intros H H2. unfold gate, bind at 1, event_fuel. cbn [loop]. unfold bind at 1, gate_body, bind at 1, get_sk at 1. replace (m <=? _) with true by lia.
  unfold bind at 1, now_microseconds. fold (clock_now s). fold (ticked s). unfold ts_sub. replace (_ <? 500000) with false by lia. reflexivity.
Qed.
Lemma gate_closed rec m t0 s e s' : m <= s_curr_window (sk s) -> clock_now s - t0 < 500000 -> rec BUF_SIZE (ticked s) = (Fail e, s') -> gate rec m t0 s = (Fail e, s').
Proof.
  intros H H2 H3. unfold gate, bind at 1, event_fuel. cbn [loop]. unfold bind at 1, gate_body, bind at 1, get_sk at 1. replace (m <=? _) with true by lia.
  unfold bind at 1, now_microseconds. fold (clock_now s). fold (ticked s). unfold ts_sub. replace (_ <? 500000) with true by lia. unfold bind at 1. rewrite H3. reflexivity.
Qed.
Lemma recv_waits n s : w_in (wd s) = [] -> 0 < s_max_retries (sk s) -> recv n s = (Fail Pend, s).
Proof.
  intros HI HM. unfold recv, bind at 1, event_fuel. rewrite HI. change (recv_fuel (S (length (@nil rx))) n) with (recv_body (recv_fuel 0) n).
  unfold recv_body, bind at 1, wait_datagram, bind at 1, event_fuel. rewrite HI. cbn [loop length]. unfold bind at 1, bind at 1, get_sk at 1.
  replace (s_max_retries (sk s) <=? 0) with false by lia. unfold bind, udp_recv. rewrite HI. reflexivity.
Qed.
(** What [transmit] does. *)
Definition ahead (p : packet) (k : socket) : Prop := u16 (s_last_acked k - seq_nr p) < u16 (seq_nr p - s_last_acked k).
Definition restamped (p : packet) (s : st) : packet := set_timestamp_difference (s_their_delay (sk s)) (set_timestamp (clock_now s) p).
Lemma transmit_cases p s p' s' : transmit p s = (Ret p', s') ->
  (ahead p (sk s) /\ p' = p /\ s' = s) \/
  (~ ahead p (sk s) /\ p' = restamped p s /\ sk s' = sk s /\ w_sent (wd s') = w_sent (wd s) ++ [(s_connected_to (sk s), p')]).
Proof.
  unfold transmit, bind at 1, get_sk at 1, ahead. destruct (_ <? _) eqn:E.
  - intros H. injection H as <- <-. left. repeat split; lia.
  - unfold bind at 1, now_microseconds. cbv zeta. fold (clock_now s). fold (ticked s). fold (restamped p s). unfold bind, udp_send. change (w_send (wd (ticked s)) (w_stick (wd (ticked s)))) with (w_send (wd s) (w_stick (wd s))).
    destruct (w_send _ _); try discriminate. cbn [try_ ret]. intros H. injection H as <- <-. right. split; [lia|]. repeat split.
Qed.
Lemma transmit_sends p s : ~ ahead p (sk s) -> tx_ok s = true -> exists s', transmit p s = (Ret (restamped p s), s') /\ sk s' = sk s /\
  sent_ok s s' [(s_connected_to (sk s), restamped p s)] /\ w_chk (wd s') = w_chk (wd s).
Proof.
  intros HA HX. unfold transmit, bind at 1, get_sk at 1. unfold ahead in HA. replace (_ <? _) with false by lia.
  unfold bind at 1, now_microseconds. cbv zeta. fold (clock_now s). fold (ticked s). fold (restamped p s). unfold bind at 1. rewrite send_ok_eq by exact HX.
  eexists. split; [reflexivity|]. unfold sent_ok, tx_state. change (tx_ok (ticked s)) with (tx_ok s). rewrite HX. repeat split.
Qed.
Lemma send_packet_gate rec p s p' s' : send_packet rec p s = (Ret p', s') -> exists t, gate_passed (limit (sk s)) (clock_now s) t /\ transmit p t = (Ret p', s').
Proof.
  rewrite send_packet_split. unfold bind. destruct (gate _ _ _ _) as [[[]|e] t] eqn:E; [|discriminate]. intros H. exists t. split; [|exact H]. eapply gate_pass, E.
Qed.
Lemma send_packet_waits p s : limit (sk s) <= s_curr_window (sk s) -> clock_now (ticked s) - clock_now s < 500000 -> w_in (wd s) = [] -> 0 < s_max_retries (sk s) ->
  send_packet recv p s = (Fail Pend, ticked (ticked s)).
Proof.
  intros H1 H2 H3 H4. rewrite send_packet_split. unfold bind. erewrite gate_closed; [reflexivity|exact H1|exact H2|]. now apply recv_waits.
Qed.

(** ** C37: fast retransmission *)
Lemma resend_lost rec lost w1 q w2 s : s_send_window (sk s) = w1 ++ q :: w2 -> seq_nr q = lost -> ~ In lost (map seq_nr w1) -> s_curr_window (sk s) < limit (sk s) ->
  ~ ahead q (sk s) -> tx_ok s = true -> exists s', resend_lost_packet rec lost s = (Ret tt, s') /\ sk s' = sk s /\
  sent_ok s s' [(s_connected_to (sk s), restamped q (ticked s))] /\ w_chk (wd s') = w_chk (wd s).
Proof.
  intros HW HQ HN HG HA HX. unfold resend_lost_packet, bind at 1, get_sk at 1. rewrite HW, position_app; [|lia|].
  2:{ intros y Hy. destruct (seq_nr y =? lost) eqn:E; [|reflexivity]. elim HN. apply in_map_iff. exists y. split; [lia|exact Hy]. }
  rewrite nth_error_app2, Nat.sub_diag by lia. cbn [nth_error unwrap]. unfold bind, ret at 1. unfold ignore_result. rewrite send_packet_split. unfold bind. rewrite gate_open by exact HG.
  destruct (transmit_sends q (ticked s) HA HX) as (s' & E & K & L & C). rewrite E. exists s'. split; [reflexivity|]. split; [exact K|]. split; [exact L|exact C].
Qed.
Lemma resend_absent rec lost s : ~ In lost (map seq_nr (s_send_window (sk s))) -> resend_lost_packet rec lost s = (Ret tt, s).
Proof.
  intros H. unfold resend_lost_packet, bind, get_sk. pose proof (position_spec (fun p => seq_nr p =? lost) (s_send_window (sk s))) as HP. destruct (position _ _); [|reflexivity].
  destruct HP as (a & x & b & E & _ & Hx & _). elim H. rewrite E, map_app. apply in_or_app. right. left. lia.
Qed.
Lemma position_none a (l : list packet) : ~ In a (map seq_nr l) -> position (fun q => a =? seq_nr q) l = None /\ position (fun q => seq_nr q =? a) l = None.
Proof.
  intros H. pose proof (position_spec (fun q => a =? seq_nr q) l) as H1. pose proof (position_spec (fun q => seq_nr q =? a) l) as H2. split; [clear H2|clear H1]; (destruct (position _ _); [|reflexivity]).
  - destruct H1 as (x & y & z & E & _ & Hx & _). elim H. rewrite E, map_app. apply in_or_app. right. left. lia.
  - destruct H2 as (x & y & z & E & _ & Hx & _). elim H. rewrite E, map_app. apply in_or_app. right. left. lia.
Qed.
Definition third_dup (p : packet) (s : st) : Prop :=
  s_last_acked (sk s) = ack_nr p /\ s_duplicate_ack_count (sk s) = 2 /\ s_send_window (sk s) <> [] /\ ~ In (ack_nr p) (map seq_nr (s_send_window (sk s))) /\
  (w_chk (wd s) = true -> ack_nr p < 65535).
Definition halved (k : socket) : Z := Z.max (s_cwnd k / 2) 2800.
Lemma third_dup_run rec p exts s : extensions p = Some exts -> no_sack exts -> third_dup p s ->
  handle_state_packet rec p s = (resend_lost_packet rec (u16 (ack_nr p + 1)) ;;; upd_sk (fun k => ss_cwnd (halved k) k) ;;; advance_send_window) (mkSt (ss_duplicate_ack_count 3 (sk s)) (wd s)).
Proof.
  intros HE HN (H1 & H2 & H3 & H4 & H5). unfold handle_state_packet. unfold bind at 1, note_ack, bind at 1, get_sk at 1. rewrite H1, Z.eqb_refl. unfold bind at 1. rewrite H2.
  change (2 + 1) with 3. unfold ck_u32. rewrite arith_fits; [|lia|reflexivity]. unfold upd_sk at 1. set (s1 := mkSt _ _). unfold bind at 1, get_sk at 1.
  change (s_send_window (sk s1)) with (s_send_window (sk s)). destruct (position_none _ _ H4) as [-> _]. unfold bind at 1, ret at 1. unfold bind at 1, get_sk at 1. cbv zeta.
  rewrite HE. unfold unwrap at 1, bind at 1, ret at 1. unfold bind at 1. rewrite no_sack_pass by exact HN.
  change (s_send_window (sk s1)) with (s_send_window (sk s)). change (s_duplicate_ack_count (sk s1)) with 3.
  unfold finish_state_packet, bind at 1, get_sk at 1. rewrite no_sack_existsb by exact HN. change (s_send_window (sk s1)) with (s_send_window (sk s)). change (s_duplicate_ack_count (sk s1)) with 3.
  assert (EA : ck_u16 1116 (ack_nr p + 1) s1 = (Ret (u16 (ack_nr p + 1)), s1)).
  { pose proof (ack_nr_range p). unfold ck_u16, arith. change (w_chk (wd s1)) with (w_chk (wd s)). destruct (w_chk (wd s)) eqn:EC; [|reflexivity]. specialize (H5 eq_refl).
    replace (true && negb ((0 <=? ack_nr p + 1) && (ack_nr p + 1 <=? 2 ^ 16 - 1))) with false by lia. reflexivity. }
  destruct (s_send_window (sk s)) as [|q w]; [congruence|]. change (3 =? 3) with true. cbn [is_nil negb andb].
  unfold bind at 1. unfold bind at 1. rewrite EA. reflexivity.
Qed.
Lemma advance_idle s : ~ In (s_last_acked (sk s)) (map seq_nr (s_send_window (sk s))) -> advance_send_window s = (Ret tt, s).
Proof. intros H. unfold advance_send_window, bind, get_sk. destruct (position_none _ _ H) as [_ ->]. reflexivity. Qed.
Lemma u16_one a : 0 <= a < 65536 -> u16 (u16 (a + 1) - a) = 1.
Proof. intros. rewrite !u16_eq. lia. Qed.
Lemma third_dup_resends rec p exts w1 q w2 s : extensions p = Some exts -> no_sack exts -> third_dup p s ->
  s_send_window (sk s) = w1 ++ q :: w2 -> seq_nr q = u16 (ack_nr p + 1) -> ~ In (u16 (ack_nr p + 1)) (map seq_nr w1) ->
  s_curr_window (sk s) < limit (sk s) -> tx_ok s = true ->
  exists s', handle_state_packet rec p s = (Ret tt, s') /\ sk s' = ss_cwnd (halved (sk s)) (ss_duplicate_ack_count 3 (sk s)) /\
    sent_ok s s' [(s_connected_to (sk s), restamped q (ticked s))].
Proof.
  intros HE HN HD HW HQ HQ1 HG HX. rewrite (third_dup_run _ _ _ _ HE HN HD). set (s1 := mkSt _ _). pose proof (ack_nr_range p) as HR. destruct HD as (H1 & H2 & H3 & H4 & H5).
  destruct (resend_lost rec _ w1 q w2 s1 HW HQ HQ1 HG) as (s2 & E & K & L & _); [|exact HX|].
  { unfold ahead. change (s_last_acked (sk s1)) with (s_last_acked (sk s)). rewrite H1, HQ. pose proof (u16_one _ HR). rewrite !u16_eq in *. lia. }
  unfold bind at 1. rewrite E. unfold bind, upd_sk. rewrite advance_idle.
  - eexists. split; [reflexivity|]. sproj. rewrite K. split; [reflexivity|exact L].
  - sproj. rewrite K. change (s_last_acked (sk s1)) with (s_last_acked (sk s)). rewrite H1. exact H4.
Qed.
Lemma third_dup_nothing rec p exts s : extensions p = Some exts -> no_sack exts -> third_dup p s -> ~ In (u16 (ack_nr p + 1)) (map seq_nr (s_send_window (sk s))) ->
  handle_state_packet rec p s = (Ret tt, mkSt (ss_cwnd (halved (sk s)) (ss_duplicate_ack_count 3 (sk s))) (wd s)).
Proof.
  intros HE HN HD HW. rewrite (third_dup_run _ _ _ _ HE HN HD). destruct HD as (H1 & H2 & H3 & H4 & H5). unfold bind at 1. rewrite resend_absent by exact HW.
  unfold bind, upd_sk. rewrite advance_idle; [reflexivity|]. sproj. now rewrite H1.
Qed.

(** ** C43, C44: what [send] does with the queue *)
Section Queue.
  Variable evs : list rx.
  Notation G := (Gin evs).
  Lemma gate_steps m t0 : rspec G W0 (gate recv m t0) (fun _ _ => True).
  Proof.
    intros s HP. unfold gate. do 2 wstep. apply (okp_loop G W0 _ _ _ (fun _ _ => True) (fun _ _ => True)); [apply steps_refl|exact I|].
    intros [] t HT _. unfold gate_body. do 2 wstep. destruct (_ <=? _); [|wstep; split; [assumption|exact I]].
    do 2 wstep. assert (HT' : steps G W0 s (ticked t)) by (eapply steps_snoc; [exact HT|apply st_tick]).
    destruct (_ <? _); [|wstep; split; [assumption|exact I]].
    eapply rspec_bind; [exact W0_ts|apply recv_steps; [exact (Gin_valid evs)|exact W0_ts|exact W0_tsd]|eassumption|eassumption|].
    intros x t' HT1 HT2 _. wstep. split; [assumption|exact I].
  Qed.
  Lemma gate_run m t0 s o t : pre G W0 s -> gate recv m t0 s = (o, t) -> not_panic o -> steps G W0 s t.
  Proof.
    intros HP H HN. pose proof (gate_steps m t0 s HP) as HW. unfold wp in HW. rewrite H in HW. cbn in HW. destruct o as [[]|[k|l| |]]; cbn in HW; auto; [apply HW|]. now destruct (HN l).
  Qed.
  Definition popped (s : st) : st := mkSt (ss_unsent_queue (tl (s_unsent_queue (sk s))) (sk s)) (wd s).
  Definition pushed (p : packet) (s : st) : st :=
    mkSt (ss_send_window (s_send_window (sk s) ++ [p]) (ss_curr_window (u32 (s_curr_window (sk s) + u32 (packet_len p))) (sk s))) (wd s).
  (** [sends s ps s']: the packets [ps] at the head of the queue are processed one after the other, each waiting at the gate, then transmitted (or skipped), then put in flight. *)
  Inductive sends : st -> list packet -> st -> Prop :=
  | sd_nil s : sends s [] s
  | sd_cons s p rest t p' s1 ps s2 : s_unsent_queue (sk s) = p :: rest -> steps G W0 (popped s) t -> gate_passed (limit (sk s)) (clock_now s) t ->
      transmit p t = (Ret p', s1) -> sends (pushed p' s1) ps s2 -> sends s (p :: ps) s2.
  Definition send_body (_ : unit) : M (unit + unit) :=
    s <- get_sk ;;
    match s_unsent_queue s with
    | [] => ret (inr tt)
    | p :: rest =>
      upd_sk (ss_unsent_queue rest) ;;;
      p' <- send_packet recv p ;;
      s <- get_sk ;;
      c <- ck_u32 641 (s_curr_window s + u32 (packet_len p')) ;;
      upd_sk (fun s => ss_send_window (s_send_window s ++ [p']) (ss_curr_window c s)) ;;;
      ret (inl tt)
    end.
  Lemma transmit_steps p s o s' : W0 p -> transmit p s = (o, s') -> not_panic o -> steps G W0 s s' /\ (forall q, o = Ret q -> W0 q).
  Proof.
    intros HW. unfold transmit, bind at 1, get_sk at 1. destruct (_ <? _); [intros H _; injection H as <- <-; split; [apply steps_refl|now intros q [= <-]]|].
    unfold bind at 1, now_microseconds. cbv zeta. fold (clock_now s). fold (ticked s). fold (restamped p s). assert (HR : W0 (restamped p s)) by (apply W0_tsd, W0_ts, HW). intros H _.
    assert (HS : steps G W0 s (tx_state (s_connected_to (sk s)) (restamped p s) (ticked s))).
    { eapply steps_snoc; [eapply steps_snoc; [apply steps_refl|apply st_tick]|]. apply (st_tx G W0 (ticked s)). now constructor. }
    unfold bind, udp_send in H. unfold tx_state, tx_ok in HS. destruct (w_send _ _); cbn [try_ ret throw fail] in H; injection H as <- <-; (split; [exact HS|intros q E; try discriminate]).
    now injection E as <-.
  Qed.
  Lemma send_loop_run f : forall s o s', opre G W0 s -> (length (s_unsent_queue (sk s)) < f)%nat -> loop f send_body tt s = (o, s') -> not_panic o ->
    (o = Ret tt /\ sends s (s_unsent_queue (sk s)) s' /\ s_unsent_queue (sk s') = []) \/
    (exists e done p rest mid, o = Fail e /\ s_unsent_queue (sk s) = done ++ p :: rest /\ sends s done mid /\ s_unsent_queue (sk mid) = p :: rest /\ steps G W0 (popped mid) s' /\ s_unsent_queue (sk s') = rest).
  Proof.
    induction f as [|f IH]; intros s o s' HP HL H HN; [lia|]. cbn [loop] in H. unfold bind at 1, send_body at 1, bind at 1, get_sk at 1 in H.
    destruct (s_unsent_queue (sk s)) as [|p rest] eqn:EU.
    - left. cbn in H. injection H as <- <-. split; [reflexivity|]. split; [constructor|exact EU].
    - unfold bind at 1, upd_sk at 1 in H. assert (EP : mkSt (ss_unsent_queue rest (sk s)) (wd s) = popped s) by (unfold popped; now rewrite EU). rewrite EP in H.
      assert (Wp : W0 p). { destruct HP as [_ HU]. rewrite EU in HU. now inversion HU. }
      assert (HPp : opre G W0 (popped s)). { apply (ostep_opre _ _ W0_ts s); [|exact HP]. rewrite <- EP. eapply os_pop; eauto. }
      unfold bind at 1 in H. rewrite send_packet_split in H. unfold bind at 1 in H.
      change (limit (sk (popped s))) with (limit (sk s)) in H. change (clock_now (popped s)) with (clock_now s) in H.
      assert (HPt : pre G W0 (ticked (popped s))) by (split; apply HPp).
      assert (HT0 : steps G W0 (popped s) (ticked (popped s))) by (eapply steps_snoc; [apply steps_refl|apply st_tick]).
      destruct (gate recv (limit (sk s)) (clock_now s) (ticked (popped s))) as [og t] eqn:EG.
      assert (HGs : not_panic og -> steps G W0 (popped s) t). { intros HNg. eapply steps_trans; [exact HT0|]. eapply gate_run; eauto. }
      destruct og as [[]|e].
      2:{ cbn in H. injection H as <- <-. right. specialize (HGs ltac:(intros l [= ->]; now apply (HN l))). exists e, [], p, rest, s. repeat split; auto; [constructor|]. rewrite (steps_unsent _ _ _ _ HGs). unfold popped. sproj. now rewrite EU. }
      specialize (HGs ltac:(intros l; discriminate)). apply gate_pass in EG.
      destruct (transmit p t) as [[p'|e] s1] eqn:ET.
      2:{ cbn in H. injection H as <- <-. right. assert (HNt : not_panic (Fail (A:=packet) e)) by (intros l [= ->]; now apply (HN l)). destruct (transmit_steps _ _ _ _ Wp ET HNt) as [HS _].
          assert (HS' : steps G W0 (popped s) s1) by (eapply steps_trans; eauto). exists e, [], p, rest, s. repeat split; auto; [constructor|]. rewrite (steps_unsent _ _ _ _ HS'). unfold popped. sproj. now rewrite EU. }
      destruct (transmit_steps _ _ _ _ Wp ET ltac:(intros l; discriminate)) as [HS HWq]. specialize (HWq _ eq_refl).
      assert (HS' : steps G W0 (popped s) s1) by (eapply steps_trans; eauto).
      unfold bind at 1, get_sk at 1 in H. unfold bind at 1, ck_u32, arith in H. destruct (w_chk (wd s1) && _) eqn:EC; [cbn in H; injection H as <- <-; now elim (HN 641)|].
      unfold bind at 1, upd_sk at 1 in H. cbn [ret] in H. fold (pushed p' s1) in H. cbv iota beta in H.
      assert (EUn : s_unsent_queue (sk (pushed p' s1)) = rest). { unfold pushed. sproj. rewrite (steps_unsent _ _ _ _ HS'). unfold popped. sproj. now rewrite EU. }
      assert (HPn : opre G W0 (pushed p' s1)).
      { apply (ostep_opre _ _ W0_ts s1); [|exact (osteps_opre _ _ W0_ts _ _ (steps_osteps _ _ _ _ HS') HPp)]. apply os_push. exact HWq. }
      destruct (IH (pushed p' s1) o s' HPn) as [(-> & HQ & HE)|(e & done & q & rest' & mid & -> & HQ & HD & HM & HSm & HE)]; [rewrite EUn; cbn in HL; lia|exact H|exact HN| |].
      + left. split; [reflexivity|]. split; [|exact HE]. rewrite EUn in HQ. eapply sd_cons; [exact EU|exact HGs|exact EG|exact ET|exact HQ].
      + right. exists e, (p :: done), q, rest', mid. split; [reflexivity|]. rewrite EUn in HQ. split; [cbn; now rewrite HQ|]. split; [eapply sd_cons; [exact EU|exact HGs|exact EG|exact ET|exact HD]|]. auto.
  Qed.
  Lemma send_run s o s' : opre G W0 s -> send s = (o, s') -> not_panic o ->
    (o = Ret tt /\ sends s (s_unsent_queue (sk s)) s' /\ s_unsent_queue (sk s') = []) \/
    (exists e done p rest mid, o = Fail e /\ s_unsent_queue (sk s) = done ++ p :: rest /\ sends s done mid /\ s_unsent_queue (sk mid) = p :: rest /\ steps G W0 (popped mid) s' /\ s_unsent_queue (sk s') = rest).
  Proof. intros HP H HN. eapply send_loop_run; eauto. Qed.
End Queue.

Lemma step_log G W s s' : step G W s s' -> exists xs, w_sent (wd s') = w_sent (wd s) ++ xs.
Proof.
  intros H; destruct H; try (exists []; rewrite app_nil_r; reflexivity).
  unfold tx_state. sproj. destruct (tx_ok s); sproj; [eexists; reflexivity|exists []; now rewrite app_nil_r].
Qed.
Lemma steps_log G W s s' : steps G W s s' -> exists xs, w_sent (wd s') = w_sent (wd s) ++ xs.
Proof.
  induction 1 as [s s' H|s|s s1 s2 _ [x1 H1] _ [x2 H2]]; [eapply step_log; eauto|exists []; now rewrite app_nil_r|]. exists (x1 ++ x2). now rewrite H2, H1, app_assoc.
Qed.
Lemma ostep_log G W s s' : ostep G W s s' -> exists xs, w_sent (wd s') = w_sent (wd s) ++ xs.
Proof.
  intros H; destruct H; try (exists []; rewrite app_nil_r; reflexivity); [eapply step_log; eauto|].
  unfold tx_state. sproj. destruct (tx_ok s); sproj; [eexists; reflexivity|exists []; now rewrite app_nil_r].
Qed.
Lemma osteps_log G W s s' : osteps G W s s' -> exists xs, w_sent (wd s') = w_sent (wd s) ++ xs.
Proof.
  induction 1 as [s s' H|s|s s1 s2 _ [x1 H1] _ [x2 H2]]; [eapply ostep_log; eauto|exists []; now rewrite app_nil_r|]. exists (x1 ++ x2). now rewrite H2, H1, app_assoc.
Qed.
(** The acknowledgement numbers a socket can hold while processing [evs]. *)
Definition known_ack (evs : list rx) (a0 a : Z) : Prop := a = a0 \/ acked_in evs a.
Lemma steps_known evs s s' : steps (Gin evs) W0 s s' -> known_ack evs (s_last_acked (sk s)) (s_last_acked (sk s')).
Proof.
  induction 1 as [s s' H|s|s s1 s2 _ H1 _ H2]; [|now left|destruct H2 as [->|H2]; [exact H1|now right]].
  destruct H; try now left. destruct H; sproj; frame; try now left.
  - right. destruct H as (d & H2 & H3). exists d, src, p. auto.
  - right. destruct H as (d & H2 & H3). exists d, src, p. auto.
Qed.
Lemma sends_chain evs s ps s' : sends evs s ps s' -> exists xs, w_sent (wd s') = w_sent (wd s) ++ xs.
Proof.
  induction 1 as [s|s p rest t p' s1 ps s2 HU HS HG HT HD [xs IH]]; [exists []; now rewrite app_nil_r|].
  destruct (steps_log _ _ _ _ HS) as [x1 E1]. change (w_sent (wd (popped s))) with (w_sent (wd s)) in E1. change (w_sent (wd (pushed p' s1))) with (w_sent (wd s1)) in IH.
  destruct (transmit_cases _ _ _ _ HT) as [(_ & _ & ->)|(_ & _ & _ & E2)].
  - exists (x1 ++ xs). now rewrite IH, E1, app_assoc.
  - exists (x1 ++ [(s_connected_to (sk t), p')] ++ xs). rewrite IH, E2, E1, <- !app_assoc. reflexivity.
Qed.
(** A packet [q] carrying the contents of [p] with new timestamps. *)
Definition copy_of (p q : packet) : Prop := exists t d, q = set_timestamp_difference d (set_timestamp t p).
Lemma sends_sent evs s ps s' : sends evs s ps s' -> forall a0, known_ack evs a0 (s_last_acked (sk s)) -> forall p, In p ps ->
  (exists dest q, copy_of p q /\ In (dest, q) (w_sent (wd s'))) \/
  (exists a, known_ack evs a0 a /\ u16 (a - seq_nr p) < u16 (seq_nr p - a)).
Proof.
  induction 1 as [s|s p rest t p' s1 ps s2 HU HS HG HT HD IH]; intros a0 HA q HI; [destruct HI|].
  assert (HAt : known_ack evs a0 (s_last_acked (sk t))).
  { destruct (steps_known _ _ _ HS) as [E|E]; [|now right]. change (s_last_acked (sk (popped s))) with (s_last_acked (sk s)) in E. now rewrite E. }
  destruct (transmit_cases _ _ _ _ HT) as [(HH & -> & ->)|(HH & E' & K & E2)].
  - destruct HI as [<-|HI].
    + right. exists (s_last_acked (sk t)). split; [exact HAt|exact HH].
    + apply (IH a0); auto.
  - destruct HI as [<-|HI].
    + left. exists (s_connected_to (sk t)), p'. split; [rewrite E'; unfold copy_of, restamped; eauto|].
      destruct (sends_chain _ _ _ _ HD) as [xs E]. rewrite E. change (w_sent (wd (pushed p' s1))) with (w_sent (wd s1)). rewrite E2. apply in_or_app. left. apply in_or_app. right. now left.
    + apply (IH a0); auto. unfold pushed. sproj. now rewrite K.
Qed.
Lemma queued_opre d s : reachable s -> s_state (sk s) <> Closed -> exists ps,
  numbered (s_sender_connection_id (sk s)) (s_ack_nr (sk s)) (s_seq_nr (sk s)) (chunks 1380 d) ps /\
  let s0 := mkSt (ss_seq_nr ((s_seq_nr (sk s) + Z.of_nat (length ps)) mod 65536) (ss_unsent_queue (s_unsent_queue (sk s) ++ ps) (sk s))) (wd s) in
  send_to d s = (send ;;; ret (zlen d)) s0 /\ opre (Gin (w_in (wd s))) W0 s0.
Proof.
  intros HR HS. destruct (send_to_splits d s (reachable_ranges s HR) HS) as (ps & HN & E & EF). exists ps. split; [exact HN|]. cbv zeta. split; [exact E|].
  pose proof (queue_osteps (Gin (w_in (wd s))) W0 (chunks CHUNK d) s s (osteps_refl _ _ _) (op_queue_ok_W0 (OSendTo d) (sk s))) as HO.
  apply (osteps_opre _ _ W0_ts) in HO; [|exact (Gin_pre s HR)]. change CHUNK with 1380%nat in HO. rewrite EF in HO. exact HO.
Qed.
Lemma send_to_sent d s n s' : reachable s -> s_unsent_queue (sk s) = [] -> send_to d s = (Ret n, s') -> exists ps,
  numbered (s_sender_connection_id (sk s)) (s_ack_nr (sk s)) (s_seq_nr (sk s)) (chunks 1380 d) ps /\
  forall p, In p ps -> (exists dest q, copy_of p q /\ In (dest, q) (w_sent (wd s'))) \/
    (exists a, (a = s_last_acked (sk s) \/ acked_in (w_in (wd s)) a) /\ u16 (a - seq_nr p) < u16 (seq_nr p - a)).
Proof.
  intros HR HU H. assert (HS : s_state (sk s) <> Closed). { intros E. unfold send_to, bind, get_sk in H. rewrite E in H. discriminate. }
  destruct (queued_opre d s HR HS) as (ps & HN & E & HP). exists ps. split; [exact HN|]. cbv zeta in E, HP. rewrite E in H. rewrite HU in *. cbn [app] in *.
  unfold bind in H. set (s0 := mkSt _ _) in *. destruct (send s0) as [[[]|e] s1] eqn:E1; [|discriminate]. injection H as <- <-.
  destruct (send_run (w_in (wd s)) s0 _ _ HP E1 ltac:(intros l; discriminate)) as [(_ & HQ & _)|(e & ? & ? & ? & ? & [=] & _)].
  intros p HI. apply (sends_sent _ _ _ _ HQ (s_last_acked (sk s))); [now left|exact HI].
Qed.

(** The queue and the window during a send: packets move from the head of the queue to the tail of the
    window; the window itself only changes by retransmission stamps and acknowledgements. *)
Inductive keeps (acked : Z -> Prop) : list packet -> list packet -> Prop :=
| kp_same w : keeps acked w w
| kp_stamp p rest t : keeps acked (p :: rest) (set_timestamp t p :: rest)
| kp_ack w1 p w2 : acked (seq_nr p) -> ~ In (seq_nr p) (map seq_nr w1) -> keeps acked (w1 ++ p :: w2) w2.
Inductive moves (acked : Z -> Prop) : list packet * list packet -> list packet * list packet -> Prop :=
| mv_keep u w w' : keeps acked w w' -> moves acked (u, w) (u, w')
| mv_send p p' u w : p' = p \/ copy_of p p' -> moves acked (p :: u, w) (u, w ++ [p']).
Lemma step_keeps evs s s' : step (Gin evs) W0 s s' -> keeps (acked_in evs) (s_send_window (sk s)) (s_send_window (sk s')).
Proof.
  intros H; destruct H; sproj; try constructor. destruct H; sproj; frame; try constructor.
  - rewrite H. constructor.
  - pose proof (position_spec (seq_is (s_last_acked k)) (s_send_window k)) as HP. rewrite H in HP. destruct HP as (a & x & b & E & HL & Hx & HF).
    unfold seq_is in Hx, HF. assert (Ex : seq_nr x = s_last_acked k) by lia. rewrite E, <- HL, skipn_past. constructor.
    + rewrite Ex. destruct H0 as (p & src & (d & H1 & H2) & H3 & H4). exists d, src, p. auto.
    + rewrite Ex. intros HI. apply in_map_iff in HI as (y & Ey & Hy). rewrite Forall_forall in HF. specialize (HF y Hy). lia.
Qed.
Lemma steps_keeps evs s s' : steps (Gin evs) W0 s s' -> clos_refl_trans _ (keeps (acked_in evs)) (s_send_window (sk s)) (s_send_window (sk s')).
Proof. induction 1; [apply rt_step; now apply step_keeps|apply rt_refl|eapply rt_trans; eauto]. Qed.
Lemma keeps_moves acked u w w' : clos_refl_trans _ (keeps acked) w w' -> clos_refl_trans _ (moves acked) (u, w) (u, w').
Proof. induction 1; [apply rt_step; now constructor|apply rt_refl|eapply rt_trans; eauto]. Qed.
Lemma sends_moves evs s ps s' : sends evs s ps s' -> forall rest, s_unsent_queue (sk s) = ps ++ rest ->
  clos_refl_trans _ (moves (acked_in evs)) (ps ++ rest, s_send_window (sk s)) (rest, s_send_window (sk s')).
Proof.
  induction 1 as [s|s p rest0 t p' s1 ps s2 HU HS HG HT HD IH]; intros rest E; [apply rt_refl|].
  rewrite HU in E. cbn [app] in *. injection E as ->. specialize (IH rest).
  assert (EW : s_send_window (sk s1) = s_send_window (sk t) /\ s_unsent_queue (sk s1) = s_unsent_queue (sk t) /\ (p' = p \/ copy_of p p')).
  { destruct (transmit_cases _ _ _ _ HT) as [(_ & -> & ->)|(_ & -> & K & _)]; [auto|]. rewrite K. split; [reflexivity|]. split; [reflexivity|]. right. unfold copy_of, restamped. eauto. }
  destruct EW as (EW & EQ & HC).
  eapply rt_trans; [apply keeps_moves; exact (steps_keeps _ _ _ HS)|].
  eapply rt_trans; [apply rt_step, mv_send, HC|].
  assert (EP : s_send_window (sk (pushed p' s1)) = s_send_window (sk t) ++ [p']) by (unfold pushed; sproj; now rewrite EW).
  rewrite EP in IH. apply IH. unfold pushed. sproj. rewrite EQ, (steps_unsent _ _ _ _ HS). unfold popped. sproj. now rewrite HU.
Qed.
Lemma send_to_moves d s o s' : reachable s -> s_state (sk s) <> Closed -> send_to d s = (o, s') -> not_panic o -> exists ps,
  numbered (s_sender_connection_id (sk s)) (s_ack_nr (sk s)) (s_seq_nr (sk s)) (chunks 1380 d) ps /\
  let acked := acked_in (w_in (wd s)) in let start := (s_unsent_queue (sk s) ++ ps, s_send_window (sk s)) in
  match o with
  | Ret _ => clos_refl_trans _ (moves acked) start ([], s_send_window (sk s')) /\ s_unsent_queue (sk s') = []
  | Fail _ => exists p w, clos_refl_trans _ (moves acked) start (p :: s_unsent_queue (sk s'), w) /\ clos_refl_trans _ (keeps acked) w (s_send_window (sk s'))
  end.
Proof.
  intros HR HS H HN. destruct (queued_opre d s HR HS) as (ps & HNu & E & HP). exists ps. split; [exact HNu|]. cbv zeta in E, HP |- *. rewrite E in H.
  unfold bind in H. set (s0 := mkSt _ _) in *. destruct (send s0) as [o1 s1] eqn:E1.
  assert (HN1 : not_panic o1). { destruct o1 as [[]|e]; intros l; [discriminate|]. intros [= ->]. injection H as <- <-. now apply (HN l). }
  destruct (send_run (w_in (wd s)) s0 _ _ HP E1 HN1) as [(-> & HQ & HE)|(e & dn & p & rest & mid & -> & HQ & HD & HM & HSm & HE)].
  - injection H as <- <-. split; [|exact HE]. change (s_unsent_queue (sk s0)) with (s_unsent_queue (sk s) ++ ps) in HQ.
    pose proof (sends_moves _ _ _ _ HQ [] ltac:(rewrite app_nil_r; reflexivity)) as HV. rewrite app_nil_r in HV. exact HV.
  - injection H as <- <-. change (s_unsent_queue (sk s0)) with (s_unsent_queue (sk s) ++ ps) in HQ. rewrite HQ. exists p, (s_send_window (sk mid)). rewrite HE. split.
    + pose proof (sends_moves _ _ _ _ HD (p :: rest)) as HV. apply HV. exact HQ.
    + exact (steps_keeps _ _ _ HSm).
Qed.
