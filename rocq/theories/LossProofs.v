(** One data packet of this connection, received while the application waits for something else: what is kept of it (C24); closing after a reset (C52). *)
From Verif Require Export TermProofs StreamRxProofs LostProofs ProvProofs.
Require Import ZifyBool ZifyNat ZifyN.
Local Open Scope Z_scope.
Ltac Zify.zify_post_hook ::= Z.div_mod_to_equations.

Lemma data_recv rec n b src p s : packet_try_from b = Some (Ok p) -> get_type p = Some PData -> own_id (sk s) p -> s_state (sk s) = Connected ->
  0 <= s_ack_nr (sk (noted p s)) < 65535 -> tx_ok s = true -> buf_inv (kept p PData (sk (noted p s))) ->
  exists s' r, process_datagram rec n b src s = (Ret (fst (flush_sk n (kept p PData (sk (noted p s)))), src), s') /\
    sk s' = snd (flush_sk n (kept p PData (sk (noted p s)))) /\ w_in (wd s') = w_in (wd s) /\
    w_sent (wd s') = w_sent (wd s) ++ [(src, r)] /\ get_type r = Some PState /\ ack_nr r = s_ack_nr (sk (noted p s)).
Proof.
  intros HP HT HO HS H0 HX HB. rewrite (process_packet _ _ _ _ p PData _ HP HT). unfold bind at 1.
  rewrite (handle_own _ p src PData s HT (or_introl HO)). unfold dispatch, bind at 1, get_sk at 1.
  assert (ES : s_state (sk (noted p s)) = Connected). { cbn [noted sk]. sproj. now rewrite (acked_other s_state p) by reflexivity. }
  assert (EX0 : tx_ok (noted p s) = true) by exact HX. assert (EI : w_in (wd (noted p s)) = w_in (wd s)) by reflexivity. assert (EW : w_sent (wd (noted p s)) = w_sent (wd s)) by reflexivity.
  revert H0 HB ES EX0 EI EW. generalize (noted p s). intros t H0 HB ES EX0 EI EW. rewrite ES.
  rewrite data_reply_full by (left; exact H0).
  unfold answer, bind at 1, bind at 1. match goal with |- context [udp_send src ?q ?u] => assert (EX : tx_ok u = true) by exact EX0; rewrite (send_ok_eq src q u EX) end.
  cbn [try_ ret]. unfold bind at 1, get_sk at 1. cbn [tx_state sk]. change (s_last_dropped (sk (ticked _))) with (s_last_dropped (sk t)).
  unfold kept in *.
  destruct (ptype_eqb PData PData && (0 <? u16 (seq_nr p - s_last_dropped (sk t)))).
  - unfold bind at 1, insert_into_buffer, upd_sk, bind at 1. rewrite flush_run; [|right; left; apply H0|apply H0|exact HB].
    eexists. eexists. split; [reflexivity|]. cbn [tx_state sk ticked wd w_in w_sent]. repeat split; auto.
    + match goal with |- context [tx_ok ?u] => change (tx_ok u) with (tx_ok t) end. rewrite EX0. exact EI.
    + match goal with |- context [tx_ok ?u] => change (tx_ok u) with (tx_ok t) end. rewrite EX0, <- EW. reflexivity.
    + rewrite set_wnd_wire, get_type_wire. cbn [h_type]. rewrite ES. reflexivity.
    + rewrite set_wnd_wire, ack_wire. cbn [h_ack]. apply u16_small. lia.
  - unfold bind at 1, ret at 1, bind at 1. rewrite flush_run; [|right; left; apply H0|apply H0|exact HB].
    eexists. eexists. split; [reflexivity|]. cbn [tx_state sk ticked wd w_in w_sent]. repeat split; auto.
    + match goal with |- context [tx_ok ?u] => change (tx_ok u) with (tx_ok t) end. rewrite EX0. exact EI.
    + match goal with |- context [tx_ok ?u] => change (tx_ok u) with (tx_ok t) end. rewrite EX0, <- EW. reflexivity.
    + rewrite set_wnd_wire, get_type_wire. cbn [h_type]. rewrite ES. reflexivity.
    + rewrite set_wnd_wire, ack_wire. cbn [h_ack]. apply u16_small. lia.
Qed.

Lemma flush_first d src rest x s s1 : w_in (wd s) = RxDgram d src :: rest -> 0 < s_max_retries (sk s) -> s_send_window (sk s) <> [] ->
  process_datagram (recv_fuel (length (w_in (wd s)))) BUF_SIZE (firstn (BUF_SIZE + HEADER_SIZE) d) src (rx_state s) = (Ret x, s1) -> w_in (wd s1) = rest ->
  flush s = flush s1.
Proof.
  intros HI HM HW HP HR. rewrite !flush_eq. rewrite HI. cbn [length]. rewrite HR. apply loop_step. unfold flush_body, bind at 1, get_sk at 1.
  destruct (s_send_window (sk s)) eqn:EW; [congruence|]. cbn [is_nil]. unfold bind at 1. rewrite (recv_first _ _ _ _ _ HI HM), HP. reflexivity.
Qed.
Lemma close_first s s1 : s_state (sk s) = Connected -> s_state (sk s1) = Connected -> flush s = flush s1 -> close s = close s1.
Proof. intros H1 H2 HF. unfold close, bind, get_sk. rewrite H1, H2, HF. reflexivity. Qed.

Lemma parsed_valid b p : packet_try_from b = Some (Ok p) -> valid p.
Proof. intros H. unfold valid. pose proof (parse_inv _ _ H) as [E _]. now rewrite E in H |- *. Qed.

(** What is left of an in-order data packet after the wait: its acknowledgement. *)
Record lost_to (s : st) (p : packet) (src : addr) (s1 : st) : Prop := mkLostTo {
  lt_pending : s_pending_data (sk s1) = [];
  lt_incoming : s_incoming_buffer (sk s1) = [];
  lt_ack : s_ack_nr (sk s1) = seq_nr p;
  lt_state : s_state (sk s1) = Connected;
  lt_window : s_send_window (sk s1) = s_send_window (sk s);
  lt_in : w_in (wd s1) = tl (w_in (wd s));
  lt_sent : exists r, w_sent (wd s1) = w_sent (wd s) ++ [(src, r)] /\ get_type r = Some PState /\ ack_nr r = seq_nr p }.

Lemma whole_flush n p pl k : payload p = Some pl -> (length pl <= n)%nat -> s_ack_nr k = seq_nr p -> s_pending_data k = [] -> s_incoming_buffer k = [p] -> 
  s_pending_data (snd (flush_sk n k)) = [] /\ s_incoming_buffer (snd (flush_sk n k)) = [] /\ s_ack_nr (snd (flush_sk n k)) = seq_nr p.
Proof.
  intros HP HL HA HD HI. unfold flush_sk. rewrite HD, HI, HA, Z.eqb_refl, HP. cbn [orb]. cbv zeta. rewrite firstn_all2, Nat.eqb_refl by lia. cbn [snd].
  unfold advance_socket. sproj. rewrite HI. sproj. auto.
Qed.

Lemma flush_loses d src rest p pl s : w_in (wd s) = RxDgram d src :: rest -> 0 < s_max_retries (sk s) -> s_send_window (sk s) <> [] -> tx_ok (rx_state s) = true ->
  s_state (sk s) = Connected -> s_pending_data (sk s) = [] -> s_incoming_buffer (sk s) = [] -> s_last_dropped (sk s) <> seq_nr p -> 0 <= s_last_dropped (sk s) < 65536 ->
  packet_try_from (firstn (BUF_SIZE + HEADER_SIZE) d) = Some (Ok p) -> get_type p = Some PData -> payload p = Some pl -> (length pl <= BUF_SIZE)%nat -> own_id (sk s) p ->
  (seq_nr p - s_ack_nr (sk s)) mod 65536 = 1 -> seq_nr p < 65535 -> 
  exists s1, flush s = flush s1 /\ close s = close s1 /\ lost_to s p src s1.
Proof.
  intros HI HM HW HX HS HD HB HL HLr HP HT HPl HLen HO HA H65. pose proof (parsed_valid _ _ HP) as HV.
  assert (Hr : 0 <= seq_nr p < 65536) by apply seq_nr_range.
  assert (EA : acked_sk p (sk s) = ss_ack_nr (seq_nr p) (sk s)). { unfold acked_sk. rewrite u16_eq, HA. reflexivity. }
  set (t := noted p (rx_state s)).
  assert (Et : sk t = ss_their_delay (abs_diff (clock_now (rx_state s)) (timestamp p)) (ss_remote_wnd_size (wnd_size p) (ss_ack_nr (seq_nr p) (sk s)))). { unfold t, noted. cbn [sk]. change (sk (rx_state s)) with (sk s). now rewrite EA. }
  assert (EK : kept p PData (sk t) = ss_incoming_buffer [p] (sk t)).
  { unfold kept. rewrite Et. sproj. rewrite u16_eq. replace (ptype_eqb PData PData && _) with true by (cbn [ptype_eqb andb]; lia). rewrite HB. reflexivity. }
  destruct (data_recv (recv_fuel (length (w_in (wd s)))) BUF_SIZE (firstn (BUF_SIZE + HEADER_SIZE) d) src p (rx_state s) HP HT HO HS) as (s1 & r & E1 & E2 & E3 & E4 & E5 & E6).
  { fold t. rewrite Et. sproj. lia. }
  { exact HX. }
  { fold t. rewrite EK. unfold buf_inv. sproj. split; [repeat constructor|]. constructor; [|constructor]. split; assumption. }
  fold t in E2, E6. rewrite EK in E2.
  destruct (whole_flush BUF_SIZE p pl (ss_incoming_buffer [p] (sk t)) HPl HLen) as (F1 & F2 & F3); [rewrite Et; sproj; auto..|].
  assert (EI : w_in (wd s1) = rest) by (rewrite E3; unfold rx_state; cbn [wd w_in]; now rewrite HI).
  assert (EF : flush s = flush s1) by (eapply flush_first; eauto).
  assert (ES : s_state (sk s1) = Connected). { rewrite E2, (flush_other s_state) by reflexivity. rewrite Et. sproj. exact HS. }
  exists s1. split; [exact EF|]. split; [now apply close_first|]. constructor; rewrite ?E2; auto.
  - now rewrite <- E2.
  - rewrite (flush_other s_send_window) by reflexivity. rewrite Et. reflexivity.
  - exists r. split; [rewrite E4; reflexivity|]. split; [exact E5|]. rewrite E6, Et. reflexivity.
Qed.

(** A packet ahead of the next one stays in the reorder buffer. *)
Lemma insert_head p buf k : StronglySorted seq_lt buf -> drained k -> s_incoming_buffer k = buf -> seq_nr p <> s_ack_nr k -> seq_nr p <> (s_ack_nr k + 1) mod 65536 ->
  drained (ss_incoming_buffer (insert_packet p buf) k).
Proof.
  intros HS [HP HD] HB H1 H2. split; [sproj; exact HP|]. sproj. rewrite HB in HD. destruct (insert_packet_spec p buf HS) as (a & b & E & _ & _ & ->). subst buf.
  destruct a as [|x a]; destruct b as [|y b]; cbn [app] in *; try destruct (_ =? _); cbn; rewrite ?E in *; auto.
Qed.
Lemma flush_keeps d src rest p s : w_in (wd s) = RxDgram d src :: rest -> 0 < s_max_retries (sk s) -> s_send_window (sk s) <> [] -> tx_ok (rx_state s) = true ->
  s_state (sk s) = Connected -> drained (sk s) -> buf_inv (sk s) -> s_last_dropped (sk s) <> seq_nr p -> 0 <= s_last_dropped (sk s) < 65536 ->
  packet_try_from (firstn (BUF_SIZE + HEADER_SIZE) d) = Some (Ok p) -> get_type p = Some PData -> own_id (sk s) p ->
  seq_nr p <> s_ack_nr (sk s) -> (seq_nr p - s_ack_nr (sk s)) mod 65536 <> 1 -> 0 <= s_ack_nr (sk s) < 65535 -> 
  exists s1, flush s = flush s1 /\ close s = close s1 /\ s_pending_data (sk s1) = [] /\ s_incoming_buffer (sk s1) = insert_packet p (s_incoming_buffer (sk s)) /\
    s_ack_nr (sk s1) = s_ack_nr (sk s) /\ s_state (sk s1) = Connected /\ w_in (wd s1) = rest.
Proof.
  intros HI HM HW HX HS HD HB HL HLr HP HT HO HA1 HA H65. pose proof (parsed_valid _ _ HP) as HV.
  assert (Hr : 0 <= seq_nr p < 65536) by apply seq_nr_range.
  assert (EA : acked_sk p (sk s) = sk s). { unfold acked_sk. rewrite u16_eq. replace (_ =? 1) with false by lia. reflexivity. }
  set (t := noted p (rx_state s)).
  assert (Et : sk t = ss_their_delay (abs_diff (clock_now (rx_state s)) (timestamp p)) (ss_remote_wnd_size (wnd_size p) (sk s))). { unfold t, noted. cbn [sk]. change (sk (rx_state s)) with (sk s). now rewrite EA. }
  assert (EK : kept p PData (sk t) = ss_incoming_buffer (insert_packet p (s_incoming_buffer (sk s))) (sk t)).
  { unfold kept. rewrite Et. sproj. rewrite u16_eq. replace (ptype_eqb PData PData && _) with true by (cbn [ptype_eqb andb]; lia). reflexivity. }
  assert (HDr : drained (ss_incoming_buffer (insert_packet p (s_incoming_buffer (sk s))) (sk t))).
  { apply insert_head; [apply HB|..]; rewrite Et; sproj; auto. lia. }
  destruct (data_recv (recv_fuel (length (w_in (wd s)))) BUF_SIZE (firstn (BUF_SIZE + HEADER_SIZE) d) src p (rx_state s) HP HT HO HS) as (s1 & r & E1 & E2 & E3 & E4 & E5 & E6).
  { fold t. rewrite Et. sproj. lia. }
  { exact HX. }
  { fold t. rewrite EK. unfold buf_inv. sproj. apply insert_packet_ok; [exact HB|]. split; assumption. }
  fold t in E1, E2, E6. rewrite EK in E2. rewrite (flush_drained _ _ HDr) in E2. cbn [snd] in E2.
  assert (EI : w_in (wd s1) = rest) by (rewrite E3; unfold rx_state; cbn [wd w_in]; now rewrite HI).
  assert (EF : flush s = flush s1) by (eapply flush_first; eauto).
  assert (ES : s_state (sk s1) = Connected). { rewrite E2, Et. sproj. exact HS. }
  exists s1. split; [exact EF|]. split; [now apply close_first|]. rewrite E2, Et. sproj. repeat split; auto. apply HD.
Qed.

(** Closing after a reset *)
Lemma close_reset s : s_state (sk s) = ResetReceived -> w_in (wd s) = [] -> 0 < s_max_retries (sk s) -> tx_ok s = true ->
  exists s', close s = (Fail Pend, s') /\ match s_send_window (sk s) with
    | [] => s_state (sk s') = FinSent /\ exists r, w_sent (wd s') = w_sent (wd s) ++ [(s_connected_to (sk s), r)] /\ get_type r = Some PFin /\ seq_nr r = u16 (s_seq_nr (sk s))
    | _ => s' = s
    end.
Proof.
  intros HS HI HM HX. unfold close, bind at 1, get_sk at 1. rewrite HS. unfold bind at 1.
  destruct (s_send_window (sk s)) as [|p w] eqn:EW.
  - assert (EF : flush s = (Ret tt, s)). { rewrite flush_eq. cbn [loop]. unfold flush_body, bind, get_sk. rewrite EW. reflexivity. }
    rewrite EF. unfold send_fin, bind at 1, bind at 1, get_sk at 1. unfold bind at 1, now_microseconds. unfold bind at 1. rewrite send_ok_eq by exact HX. cbn [try_ ret]. unfold bind at 1, upd_sk. unfold bind at 1, event_fuel.
    unfold tx_state. match goal with |- context [tx_ok ?t] => change (tx_ok t) with (tx_ok s) end. rewrite HX.
    cbn [wd w_in sw_sent sw_stick sw_tick ticked]. rewrite HI. cbn [length loop]. unfold bind at 1, bind at 1, get_sk at 1. cbn [sk]. sproj. cbn [sstate_eqb]. unfold bind at 1. rewrite recv_waits; [|exact HI|exact HM].
    eexists. split; [reflexivity|]. split; [reflexivity|]. eexists. split; [reflexivity|].
    rewrite packet_new_wire, set_cid_wire, set_seq_wire, set_ack_wire, set_ts_wire, set_type_wire. split; [now rewrite get_type_wire|]. now rewrite seq_wire.
  - exists s. split; [|reflexivity]. rewrite flush_eq. rewrite HI. cbn [length loop]. unfold bind at 1, flush_body, bind at 1, get_sk at 1. rewrite EW. cbn [is_nil]. unfold bind at 1. rewrite recv_waits by assumption. reflexivity.
Qed.

(** The same for reachable states. *)
Lemma reachable_dropped s : reachable s -> 0 <= s_last_dropped (sk s) < 65536.
Proof. intros HR. exact (r_ldrop _ (reachable_ranges s HR)). Qed.
Lemma flush_discards d src rest p pl s : reachable s ->
  w_in (wd s) = RxDgram d src :: rest -> 0 < s_max_retries (sk s) -> s_send_window (sk s) <> [] -> tx_ok (rx_state s) = true ->
  s_state (sk s) = Connected -> s_pending_data (sk s) = [] -> s_incoming_buffer (sk s) = [] -> s_last_dropped (sk s) <> seq_nr p ->
  packet_try_from (firstn (BUF_SIZE + HEADER_SIZE) d) = Some (Ok p) -> get_type p = Some PData -> payload p = Some pl -> own_id (sk s) p ->
  (seq_nr p - s_ack_nr (sk s)) mod 65536 = 1 -> seq_nr p < 65535 ->
  exists s1, flush s = flush s1 /\ close s = close s1 /\ s_pending_data (sk s1) = [] /\ s_incoming_buffer (sk s1) = [] /\ s_ack_nr (sk s1) = seq_nr p /\ w_in (wd s1) = rest /\
    exists r, w_sent (wd s1) = w_sent (wd s) ++ [(src, r)] /\ get_type r = Some PState /\ ack_nr r = seq_nr p.
Proof.
  intros HR HI HM HW HX HS HP HB HL HPk HT HPl HO HA H65.
  assert (HLen : (length pl <= BUF_SIZE)%nat). { pose proof (proj1 (parse_inv _ _ HPk)) as EP.
    assert (HF : fits p) by (unfold fits; subst p; rewrite firstn_length; unfold BUF_SIZE, HEADER_SIZE; lia).
    rewrite <- (payload_fits _ _ BUF_SIZE HF HPl) by (unfold BUF_SIZE; lia). rewrite firstn_length. lia. }
  destruct (flush_loses d src rest p pl s) as (s1 & E1 & E2 & []); auto using reachable_dropped.
  exists s1. rewrite HI in lt_in0. auto 10.
Qed.
Lemma flush_stores d src rest p s : reachable s ->
  w_in (wd s) = RxDgram d src :: rest -> 0 < s_max_retries (sk s) -> s_send_window (sk s) <> [] -> tx_ok (rx_state s) = true ->
  s_state (sk s) = Connected -> drained (sk s) -> s_last_dropped (sk s) <> seq_nr p ->
  packet_try_from (firstn (BUF_SIZE + HEADER_SIZE) d) = Some (Ok p) -> get_type p = Some PData -> own_id (sk s) p ->
  seq_nr p <> s_ack_nr (sk s) -> (seq_nr p - s_ack_nr (sk s)) mod 65536 <> 1 -> s_ack_nr (sk s) < 65535 ->
  exists s1, flush s = flush s1 /\ close s = close s1 /\ w_in (wd s1) = rest /\ s_ack_nr (sk s1) = s_ack_nr (sk s) /\
    (exists p', In p' (s_incoming_buffer (sk s1)) /\ seq_nr p' = seq_nr p /\ (p' = p \/ In p' (s_incoming_buffer (sk s)))) /\
    (forall p', In p' (s_incoming_buffer (sk s)) -> In p' (s_incoming_buffer (sk s1))).
Proof.
  intros HR HI HM HW HX HS HD HL HPk HT HO H1 H2 H3. pose proof (reachable_buffer s HR) as HB. pose proof (r_ack _ (reachable_ranges s HR)) as HA.
  destruct (flush_keeps d src rest p s) as (s1 & E1 & E2 & E3 & E4 & E5 & E6 & E7); auto using reachable_dropped; [lia|].
  exists s1. rewrite E4. do 4 (split; [assumption|]). destruct (insert_packet_spec p _ (proj1 HB)) as (a & b & E & Ha & Hb & ->). destruct b as [|y b].
  - split; [exists p; split; [apply in_or_app; right; now left|auto]|]. intros p' Hp. rewrite E, app_nil_r in Hp. apply in_or_app. auto.
  - destruct (seq_nr y =? seq_nr p) eqn:EY.
    + split; [|auto]. exists y. rewrite E. split; [apply in_or_app; right; now left|]. split; [lia|]. right. apply in_or_app; right; now left.
    + split; [exists p; split; [apply in_or_app; right; now left|auto]|]. intros p' Hp. rewrite E in Hp. apply in_app_or in Hp. apply in_or_app. destruct Hp; [auto|]. right. now right.
Qed.

(** C22 *)
Lemma run_ops_provenance ops s d src : reachable s -> s_incoming_buffer (sk s) = [] -> s_pending_data (sk s) = [] ->
  In (Ret (VData d src)) (fst (run_ops ops s)) -> d <> [] ->
  exists e p pre post, In e (w_in (wd s)) /\ delivers e p /\ get_type p = Some PData /\ payload p = Some (pre ++ d ++ post).
Proof.
  intros HR HB HP HI HD. destruct (reachable_wins s HR) as [H1 H2].
  destruct (run_ops_yields (w_in (wd s)) ops s d src) as (p & pre & post & (HT & a & b & HIn & HPk) & HPl); auto.
  - split; [split; [split; [|exact H1]|exact H2]|]. { intros b a p HIn HPk. split; [exact (parsed_valid _ _ HPk)|]. exists b. auto. }
    split; [rewrite HB; constructor|now left].
  - exists (RxDgram b a), p, pre, post. split; [exact HIn|]. split; [exists b, a; auto|]. auto.
Qed.
(** C23 *)
Lemma never_acknowledged ops s q : reachable s -> s_state (sk s) <> New -> s_state (sk s) <> SynSent ->
  s_pending_data (sk s) = [] -> s_incoming_buffer (sk s) = [] -> s_send_window (sk s) = [] -> s_unsent_queue (sk s) = [] ->
  0 <= q < 65536 -> q <> s_ack_nr (sk s) ->
  (forall e p, In e (w_in (wd s)) -> delivers e p -> seq_nr p <> q) ->
  Forall (fun o => match o with ORecvFrom n => (1500 <= n)%nat | _ => True end) ops ->
  let s' := snd (run_ops ops s) in
  let before z := (z - s_ack_nr (sk s)) mod 65536 < (q - s_ack_nr (sk s)) mod 65536 in
  before (s_ack_nr (sk s')) /\
  exists new, w_sent (wd s') = w_sent (wd s) ++ new /\ Forall (fun x => before (ack_nr (snd x))) new.
Proof.
  intros HR H1 H2 HP HB HW HU Hq Hn HE HO. cbv zeta. pose proof (r_ack _ (reachable_ranges s HR)) as HA.
  set (a := s_ack_nr (sk s)) in *. set (lim := (q - 1 - a) mod 65536).
  assert (HOK : forall z, okack q lim z -> (z - a) mod 65536 < (q - a) mod 65536) by (unfold okack, lim; intros; lia).
  assert (HS : LS q lim (w_sent (wd s)) s).
  { split; [constructor; auto|split].
    - rewrite HB. constructor.
    - unfold okack. fold a. unfold lim. lia.
    - rewrite HW. constructor.
    - rewrite HU. constructor.
    - intros d src p HI HPk. apply (HE (RxDgram d src)); [exact HI|]. exists d, src. auto.
    - exists []. rewrite app_nil_r. auto. }
  destruct (kp_run_ops q lim (w_sent (wd s)) Hq ops HO s HS) as [HK (_ & new & H3 & H4)].
  split; [apply HOK, HK|]. exists new. split; [exact H3|]. eapply Forall_impl; [|exact H4]. cbn beta. auto.
Qed.
