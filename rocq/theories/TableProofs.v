(** One received packet against the table of SpecTable.v (C104). *)
From Verif Require Export SpecTable ReplyProofs.
Require Import ZifyBool ZifyNat ZifyN.
Local Open Scope Z_scope.
Ltac Zify.zify_post_hook ::= Z.div_mod_to_equations.

Lemma attach_sack_wire orig h s o s' : 0 <= s_ack_nr (sk s) -> attach_sack orig (wire h [] []) s = (o, s') ->
  s' = s /\ ((exists l, o = Fail (Panic l)) \/ exists exts, o = Ret (wire h exts [])).
Proof.
  intros HA. destruct (is_nil (s_incoming_buffer (sk s))) eqn:EN.
  { rewrite attach_sack_exact by (right; right; destruct (s_incoming_buffer (sk s)); [reflexivity|discriminate]). intros [= <- <-]. eauto. }
  destruct (w_chk (wd s)) eqn:EC.
  - destruct (Z_lt_dec (s_ack_nr (sk s)) 65535) as [H1|H1].
    + rewrite attach_sack_exact by (left; lia); intros [= <- <-]; eauto.
    + unfold attach_sack, bind at 1, get_sk at 1. destruct (1 <? _); [|intros [= <- <-]; eauto].
      unfold build_selective_ack, bind, get_sk. rewrite EN. unfold ck_u16, arith. rewrite EC. change (2 ^ 16 - 1) with 65535.
      replace (true && _) with true by lia. intros [= <- <-]. eauto.
  - rewrite attach_sack_exact by auto. intros [= <- <-]. eauto.
Qed.

Lemma socket_ext k k' :
  s_connected_to k = s_connected_to k' -> s_sender_connection_id k = s_sender_connection_id k' -> s_receiver_connection_id k = s_receiver_connection_id k' ->
  s_seq_nr k = s_seq_nr k' -> s_ack_nr k = s_ack_nr k' -> s_state k = s_state k' -> s_incoming_buffer k = s_incoming_buffer k' -> s_send_window k = s_send_window k' ->
  s_unsent_queue k = s_unsent_queue k' -> s_duplicate_ack_count k = s_duplicate_ack_count k' -> s_last_acked k = s_last_acked k' ->
  s_last_acked_timestamp k = s_last_acked_timestamp k' -> s_last_dropped k = s_last_dropped k' -> s_rtt k = s_rtt k' -> s_rtt_variance k = s_rtt_variance k' ->
  s_pending_data k = s_pending_data k' -> s_curr_window k = s_curr_window k' -> s_remote_wnd_size k = s_remote_wnd_size k' -> s_base_delays k = s_base_delays k' ->
  s_current_delays k = s_current_delays k' -> s_their_delay k = s_their_delay k' -> s_last_rollover k = s_last_rollover k' ->
  s_congestion_timeout k = s_congestion_timeout k' -> s_cwnd k = s_cwnd k' -> s_max_retries k = s_max_retries k' -> k = k'.
Proof. destruct k, k'. cbn. intros. subst. reflexivity. Qed.

Definition seen (p : packet) (t0 : Z) (k : socket) : socket :=
  ss_remote_wnd_size (wnd_size p) (ss_their_delay (Z.abs (t0 - timestamp p)) (ss_ack_nr (if (seq_nr p - s_ack_nr k) mod 65536 =? 1 then seq_nr p else s_ack_nr k) k)).
Lemma acked_sk_eq p k : acked_sk p k = ss_ack_nr (if (seq_nr p - s_ack_nr k) mod 65536 =? 1 then seq_nr p else s_ack_nr k) k.
Proof. unfold acked_sk. rewrite u16_eq. destruct (_ =? 1); [reflexivity|]. now destruct k. Qed.
Lemma abs_diff_abs a b : abs_diff a b = Z.abs (a - b).
Proof. unfold abs_diff, ts_sub. destruct (b <? a) eqn:E; lia. Qed.
Lemma noted_seen p s : noted p s = mkSt (seen p (clock_now s) (sk s)) (wd (ticked s)).
Proof. unfold noted, seen. rewrite acked_sk_eq, abs_diff_abs. reflexivity. Qed.

Definition disposed (v : verdict) (p : packet) (now : Z) (k : socket) (o : outcome (option packet)) : Prop :=
  match v with
  | Quiet => o = Ret None
  | Answer t => exists h exts, o = Ret (Some (wire h exts [])) /\ h = mkHdr t (s_sender_connection_id k) now (u32 (Z.abs (now - timestamp p))) 0 (s_seq_nr k) (s_ack_nr k)
  | Refuse e => o = Fail (Throw e)
  end.
Definition same_net (s s' : st) : Prop := exists n m, wd s' = sw_rtick m (sw_tick n (wd s)).
Lemma same_net_ticks s : same_net s (ticked s).
Proof. exists (S (w_tick (wd s))), (w_rtick (wd s)). unfold ticked. sproj. now destruct (wd s). Qed.

Lemma reply_to_hdr p t u : reply_to p t u = wire (mkHdr t (s_sender_connection_id (sk u)) (clock_now u) (u32 (Z.abs (clock_now u - timestamp p))) 0 (s_seq_nr (sk u)) (s_ack_nr (sk u))) [] [].
Proof. unfold reply_to. now rewrite abs_diff_abs. Qed.
Lemma foreign_spec k ty p : foreign k ty p = true <-> ty <> PSyn /\ s_state k <> SynSent /\ ~ own_id k p.
Proof. unfold foreign, own_id. destruct ty, (s_state k); try (split; [discriminate|intros (? & ? & ?); congruence]); split; try intros (_ & _ & H); try intros H; repeat split; try discriminate; lia. Qed.

Section Table.
  Variable rec : nat -> M (list byte * addr).
  Lemma handle_table p ty src s o s' : 0 <= s_ack_nr (sk s) < 65536 -> get_type p = Some ty -> ~ (s_state (sk s) = Connected /\ ty = PState) -> handle_packet rec p src s = (o, s') -> (forall l, o <> Fail (Panic l)) ->
    let t := table src p ty (clock_now s) (clock_now (ticked s)) (w_rand (wd s) (w_rtick (wd s))) (sk s) in
    sk s' = snd t /\ disposed (fst t) p (if foreign (sk s) ty p then clock_now s else clock_now (ticked s)) (snd t) o /\ same_net s s'.
  Proof.
    intros HA HT HC HH HN. destruct (foreign (sk s) ty p) eqn:HF.
    { unfold table. rewrite HF. apply foreign_spec in HF as (F1 & F2 & F3). rewrite (handle_foreign rec p src ty s HT F1 F2 F3) in HH.
      injection HH as <- <-. cbv zeta. cbn [fst snd disposed]. rewrite acked_sk_eq. split; [reflexivity|]. split; [rewrite reply_to_hdr; eauto|].
      destruct (same_net_ticks s) as (n & m & E). exists n, m. exact E. }
    assert (HO : own_id (sk s) p \/ ty = PSyn \/ s_state (sk s) = SynSent).
    { destruct (ptype_eqb ty PSyn) eqn:E1; [destruct ty; try discriminate; auto|]. destruct (sstate_eqb (s_state (sk s)) SynSent) eqn:E2; [destruct (s_state (sk s)); try discriminate; auto|].
      left. unfold own_id. destruct (Z.eq_dec (connection_id p) (s_sender_connection_id (sk s))); [auto|]. destruct (Z.eq_dec (connection_id p) (s_receiver_connection_id (sk s))); [auto|].
      exfalso. assert (foreign (sk s) ty p = true); [|congruence]. apply foreign_spec. unfold own_id. repeat split; [intros ->; discriminate|intros E; rewrite E in E2; discriminate|tauto]. }
    rewrite (handle_own rec p src ty s HT HO), noted_seen in HH. unfold table. rewrite HF. fold (seen p (clock_now s) (sk s)).
    set (k1 := seen p (clock_now s) (sk s)) in *.
    assert (K1 : s_state k1 = s_state (sk s)) by reflexivity. assert (K2 : s_seq_nr k1 = s_seq_nr (sk s)) by reflexivity.
    assert (K3 : 0 <= s_ack_nr k1) by (unfold k1, seen; sproj; pose proof (seq_nr_range p); destruct (_ =? 1); lia).
    unfold dispatch, bind at 1, get_sk at 1 in HH. cbn [sk] in HH. rewrite K1 in HH.
    assert (E0 : ticked {| sk := k1; wd := wd (ticked s) |} = mkSt k1 (wd (ticked (ticked s)))) by reflexivity.
    assert (E1 : clock_now {| sk := k1; wd := wd (ticked s) |} = clock_now (ticked s)) by reflexivity.
    assert (N1 : forall k, same_net s (mkSt k (wd (ticked s)))) by (intros k; destruct (same_net_ticks s) as (n & m & E); exists n, m; exact E).
    assert (N2 : forall k, same_net s (mkSt k (wd (ticked (ticked s))))).
    { intros k. exists (S (S (w_tick (wd s)))), (w_rtick (wd s)). unfold ticked. sproj. now destruct (wd s). }
    assert (PR : forall t, (r <- prepare_reply p t ;; ret (Some r)) {| sk := k1; wd := wd (ticked s) |} = (Ret (Some (reply_to p t {| sk := k1; wd := wd (ticked s) |})), mkSt k1 (wd (ticked (ticked s))))).
    { intros t. unfold bind. rewrite prepare_reply_eq. reflexivity. }
    assert (PA : forall t (m : packet -> M (option packet)) o s', (r <- prepare_reply p t ;; r' <- attach_sack p r ;; m r') {| sk := k1; wd := wd (ticked s) |} = (o, s') -> (forall l, o <> Fail (Panic l)) ->
      exists exts, m (wire (mkHdr t (s_sender_connection_id k1) (clock_now (ticked s)) (u32 (Z.abs (clock_now (ticked s) - timestamp p))) 0 (s_seq_nr k1) (s_ack_nr k1)) exts []) (mkSt k1 (wd (ticked (ticked s)))) = (o, s')).
    { intros t m o0 s0. unfold bind at 1. rewrite prepare_reply_eq, E0, reply_to_hdr, E1. cbn [sk]. unfold bind at 1.
      destruct (attach_sack _ _ _) as [oa sa] eqn:EA. apply attach_sack_wire in EA as [-> [[l ->]|[exts ->]]]; [| |exact K3].
      - intros [= <- <-] H. now elim (H l).
      - intros H _. exists exts. exact H. }
    assert (FH : forall t m, m = handle_data_packet p -> t = (if sstate_eqb (s_state (sk s)) FinSent then PFin else PState) -> m {| sk := k1; wd := wd (ticked s) |} = (o, s') ->
      sk s' = k1 /\ (exists h exts, o = Ret (Some (wire h exts [])) /\ h = mkHdr t (s_sender_connection_id k1) (clock_now (ticked s)) (u32 (Z.abs (clock_now (ticked s) - timestamp p))) 0 (s_seq_nr k1) (s_ack_nr k1)) /\ same_net s s').
    { intros t m -> ->. unfold handle_data_packet, bind at 1, get_sk at 1. cbv zeta. cbn [sk]. rewrite K1. intros H. apply PA in H; [|exact HN]. destruct H as [exts H]. injection H as <- <-. repeat split; eauto. }
    assert (FF : forall m, m = (r <- prepare_reply p PState ;; r' <- attach_sack p r ;; upd_sk (ss_state Closed) ;;; ret (Some r')) -> m {| sk := k1; wd := wd (ticked s) |} = (o, s') ->
      sk s' = ss_state Closed k1 /\ (exists h exts, o = Ret (Some (wire h exts [])) /\ h = mkHdr PState (s_sender_connection_id k1) (clock_now (ticked s)) (u32 (Z.abs (clock_now (ticked s) - timestamp p))) 0 (s_seq_nr k1) (s_ack_nr k1)) /\ same_net s s').
    { intros m ->. intros H. apply PA in H; [|exact HN]. destruct H as [exts H]. injection H as <- <-. repeat split; eauto. }
    assert (FR : forall t m, m = (r <- prepare_reply p t ;; ret (Some r)) -> m {| sk := k1; wd := wd (ticked s) |} = (o, s') ->
      sk s' = k1 /\ (exists h exts, o = Ret (Some (wire h exts [])) /\ h = mkHdr t (s_sender_connection_id k1) (clock_now (ticked s)) (u32 (Z.abs (clock_now (ticked s) - timestamp p))) 0 (s_seq_nr k1) (s_ack_nr k1)) /\ same_net s s').
    { intros t m ->. rewrite PR, reply_to_hdr, E1. intros [= <- <-]. repeat split; eauto. }
    destruct (s_state (sk s)) eqn:ES, ty; cbn [fst snd disposed]; try (now elim HC);
    try (now apply (FH _ _ eq_refl eq_refl HH)); try (now apply (FF _ eq_refl HH)); try (now apply (FR _ _ eq_refl HH));
    try (injection HH as <- <-; repeat split; auto).
    - (* New, SYN *) clear PR PA FH FF FR. unfold bind, upd_sk, random_u16, ck_u16, arith in HH. cbn [sk wd] in HH. destruct (w_chk _ && _); [injection HH as <- <-; now elim (HN 888)|].
      rewrite prepare_reply_eq, reply_to_hdr in HH. unfold ret in HH. injection HH as <- <-. sproj. rewrite !u16_eq. split; [|split].
      + apply socket_ext; cbn; reflexivity.
      + eexists _, _. split; reflexivity.
      + exists (S (S (w_tick (wd s)))), (S (w_rtick (wd s))). reflexivity.
    - (* SynSent, State *) clear PR PA FH FF FR. unfold bind, upd_sk, ck_u16, arith in HH. cbn [sk wd] in HH. destruct (w_chk _ && _); [injection HH as <- <-; now elim (HN 899)|].
      unfold now_microseconds, ret in HH. injection HH as <- <-. sproj. rewrite ?K2, !u16_eq. split; [|split]; [|reflexivity|].
      + apply socket_ext; cbn; reflexivity.
      + exists (S (S (w_tick (wd s)))), (w_rtick (wd s)). unfold ticked. sproj. destruct (wd s); reflexivity.
    - (* FinSent, State *) unfold bind in HH. cbn [sk] in HH. rewrite K2 in HH. destruct (ack_nr p =? s_seq_nr (sk s)); injection HH as <- <-; repeat split; auto.
  Qed.
End Table.

(** ** The whole receive *)
Lemma delivers_refl k : delivers_only k k.
Proof. exists (s_incoming_buffer k), (s_pending_data k), (s_ack_nr k), (s_last_dropped k). now destruct k. Qed.
Lemma delivers_advance k k' : delivers_only k k' -> delivers_only k (advance_socket k').
Proof. intros (buf & pend & a & d & ->). unfold advance_socket. sproj. destruct buf as [|q buf]; [now exists [], pend, a, d|]. exists buf, pend, (seq_nr q), (seq_nr q). reflexivity. Qed.
Lemma delivers_pending k k' l : delivers_only k k' -> delivers_only k (ss_pending_data l k').
Proof. intros (buf & pend & a & d & ->). exists buf, l, a, d. reflexivity. Qed.
Lemma delivers_buffer k k' l : delivers_only k k' -> delivers_only k (ss_incoming_buffer l k').
Proof. intros (buf & pend & a & d & ->). exists l, pend, a, d. reflexivity. Qed.
Lemma delivers_flush n k k' : delivers_only k k' -> delivers_only k (snd (flush_sk n k')).
Proof.
  intros H. unfold flush_sk. destruct (s_pending_data k') as [|b l]; cbv zeta.
  - destruct (s_incoming_buffer k') as [|q buf]; [exact H|]. destruct (_ || _); [|exact H]. destruct (payload q); [|exact H]. cbn [snd]. destruct (_ =? _)%nat; [now apply delivers_advance|now apply delivers_pending].
  - cbn [snd]. destruct (_ =? _)%nat; [apply delivers_advance|]; now apply delivers_pending.
Qed.
(** Everything after the processing of the packet. *)
Lemma answer_delivers p ty n src reply s : tx_ok s = true -> wp (answer p ty n src reply) (fun o u =>
  match o with Fail (Panic _) => True | Fail _ => False | Ret x => snd x = src end /\ delivers_only (sk s) (sk u) /\ w_in (wd u) = w_in (wd s) /\
  w_sent (wd u) = w_sent (wd s) ++ match reply with Some r => [(src, set_wnd_size 1048576 r)] | None => [] end) s.
Proof.
  intros HX. unfold answer. apply wp_bind.
  assert (HF : forall u, wd u = wd u -> forall t, delivers_only (sk s) (sk t) -> w_in (wd t) = w_in (wd s) ->
    w_sent (wd t) = w_sent (wd s) ++ match reply with Some r => [(src, set_wnd_size 1048576 r)] | None => [] end ->
    wp (s <- get_sk ;; (if ptype_eqb ty PData && (0 <? u16 (seq_nr p - s_last_dropped s)) then insert_into_buffer p else ret tt) ;;; data <- flush_incoming_buffer n ;; ret (data, src))
    (fun o u => match o with Fail (Panic _) => True | Fail _ => False | Ret x => snd x = src end /\ delivers_only (sk s) (sk u) /\ w_in (wd u) = w_in (wd s) /\
      w_sent (wd u) = w_sent (wd s) ++ match reply with Some r => [(src, set_wnd_size 1048576 r)] | None => [] end) t).
  { intros _ _ t H1 H2 H3. do 2 wstep.
    assert (HG : forall t', delivers_only (sk s) (sk t') -> wd t' = wd t -> wp (data <- flush_incoming_buffer n ;; ret (data, src))
      (fun o u => match o with Fail (Panic _) => True | Fail _ => False | Ret x => snd x = src end /\ delivers_only (sk s) (sk u) /\ w_in (wd u) = w_in (wd s) /\
        w_sent (wd u) = w_sent (wd s) ++ match reply with Some r => [(src, set_wnd_size 1048576 r)] | None => [] end) t').
    { intros t' G1 G2. apply wp_bind. eapply wp_conseq; [apply flush_incoming_spec|]. cbv beta. intros [dd|[]] u' H; try contradiction.
      - destruct H as [_ ->]. wstep. cbn [snd sk wd]. rewrite G2. split; [reflexivity|]. split; [now apply delivers_flush|]. auto.
      - subst u'. rewrite G2. auto. }
    wstep. destruct (_ && _); [unfold insert_into_buffer|]; wstep; apply HG; auto. now apply delivers_buffer. }
  destruct reply as [r|].
  - apply wp_bind. unfold wp at 1. rewrite (send_ok_eq src (set_wnd_size WINDOW_SIZE r) s HX). cbn [fst snd try_]. change WINDOW_SIZE with 1048576. wstep.
    apply (HF s eq_refl); unfold tx_state; rewrite HX; sproj; auto using delivers_refl.
  - wstep. apply (HF s eq_refl); auto using delivers_refl, app_nil_r.
Qed.
Lemma recv_table n d src p ty rest s : reachable s -> w_in (wd s) = RxDgram d src :: rest -> 0 < s_max_retries (sk s) ->
  packet_try_from (firstn 1520 d) = Some (Ok p) -> get_type p = Some ty -> ~ (s_state (sk s) = Connected /\ ty = PState) -> tx_ok s = true -> (forall l, fst (recv n s) <> Fail (Panic l)) ->
  let t := table src p ty (clock_now s) (clock_now (ticked s)) (w_rand (wd s) (w_rtick (wd s))) (sk s) in
  let s' := snd (recv n s) in
  w_in (wd s') = rest /\
  match fst t with
  | Quiet => w_sent (wd s') = w_sent (wd s) /\ delivers_only (snd t) (sk s') /\ exists data, fst (recv n s) = Ret (data, src)
  | Answer r => (exists q, w_sent (wd s') = w_sent (wd s) ++ [(src, q)] /\ answers r p (if foreign (sk s) ty p then clock_now s else clock_now (ticked s)) (snd t) q /\ wnd_size q = 1048576) /\
      delivers_only (snd t) (sk s') /\ exists data, fst (recv n s) = Ret (data, src)
  | Refuse e => w_sent (wd s') = w_sent (wd s) /\ sk s' = snd t /\ fst (recv n s) = Fail (Throw e)
  end.
Proof.
  intros HR HI HM HP HT HC HX HN. pose proof (reachable_ranges s HR) as G. revert HN. rewrite (recv_first n d src rest s HI HM), (process_packet _ _ _ _ p ty _ HP HT). intros HN. unfold bind in *. fold (answer p ty n src) in *.
  destruct (handle_packet _ p src (rx_state s)) as [o s1] eqn:EH.
  assert (HNo : forall l, o <> Fail (Panic l)) by (intros l ->; now elim (HN l)).
  destruct (handle_table _ p ty src (rx_state s) o s1 (r_ack _ G) HT HC EH HNo) as (K & D & (i & j & W)).
  change (clock_now (rx_state s)) with (clock_now s) in *. change (clock_now (ticked (rx_state s))) with (clock_now (ticked s)) in *. change (sk (rx_state s)) with (sk s) in *.
  change (w_rand (wd (rx_state s)) (w_rtick (wd (rx_state s)))) with (w_rand (wd s) (w_rtick (wd s))) in *.
  set (t := table _ _ _ _ _ _ _) in *. cbv zeta. assert (HX1 : tx_ok s1 = true) by (unfold tx_ok; rewrite W; exact HX).
  assert (W1 : w_in (wd s1) = rest) by (rewrite W; unfold rx_state; sproj; now rewrite HI). assert (W2 : w_sent (wd s1) = w_sent (wd s)) by (rewrite W; reflexivity).
  assert (RG : 0 <= s_sender_connection_id (snd t) < 65536 /\ 0 <= s_seq_nr (snd t) < 65536 /\ 0 <= s_ack_nr (snd t) < 65536).
  { pose proof (r_scid _ G). pose proof (r_seq _ G). pose proof (r_ack _ G). pose proof (seq_nr_range p).
    assert (0 <= (if (seq_nr p - s_ack_nr (sk s)) mod 65536 =? 1 then seq_nr p else s_ack_nr (sk s)) < 65536) by (destruct (_ =? 1); lia).
    pose proof (Z.mod_pos_bound (s_seq_nr (sk s) + 1) 65536 eq_refl). pose proof (Z.mod_pos_bound (w_rand (wd s) (w_rtick (wd s))) 65536 eq_refl).
    assert (0 <= connection_id p < 65536) by apply cid_range.
    unfold t, table. destruct (foreign _ _ _); [sproj; auto|]. destruct (s_state (sk s)), ty; cbn [snd]; sproj; auto. all: destruct (ack_nr p =? s_seq_nr (sk s)); sproj; auto. }
  destruct RG as (G1 & G2 & G3).
  destruct (fst t) as [|r|e]; cbn [disposed] in D.
  - subst o. pose proof (answer_delivers p ty n src None s1 HX1) as HA. unfold wp in HA. rewrite K, W1, W2, app_nil_r in HA. destruct HA as (A1 & A2 & A3 & A4).
    split; [exact A3|]. split; [exact A4|]. split; [exact A2|]. destruct (fst (answer p ty n src None s1)) as [[dd x]|[]] eqn:EF; try contradiction; [cbn [snd] in A1; subst x; eauto|]. now elim (HN line).
  - destruct D as (h & exts & -> & Hh). pose proof (answer_delivers p ty n src (Some (wire h exts [])) s1 HX1) as HA. unfold wp in HA. rewrite K, W1, W2 in HA. destruct HA as (A1 & A2 & A3 & A4).
    split; [exact A3|]. split; [|split; [exact A2|]].
    + eexists. split; [exact A4|]. rewrite Hh, set_wnd_wire. unfold answers. rewrite get_type_wire, cid_wire, seq_wire, ack_wire, wnd_wire, ts_wire, tsd_wire.
      cbn [h_type h_cid h_seq h_ack h_wnd h_ts h_tsd]. rewrite !u16_small by assumption.
      assert (HC1 : forall u, u32 (clock_now u) = clock_now u) by (intros u; apply u32_small; apply (micros_range)).
      assert (HC2 : forall u, u32 (u32 (Z.abs (clock_now u - timestamp p))) = Z.abs (clock_now u - timestamp p)).
      { intros u. pose proof (micros_range (w_clock (wd u) (w_tick (wd u)))) as M1. fold (clock_now u) in M1. pose proof (timestamp_range p). rewrite (u32_small (Z.abs _)) by lia; apply u32_small; lia. }
      split; [|reflexivity]. repeat split; auto; destruct (foreign _ _ _); auto.
    + match type of HN with forall l, fst ?x <> _ => destruct (fst x) as [[dd x']|[]] eqn:EF end; try contradiction; [cbn [snd] in A1; subst x'; eauto|]. now elim (HN line).
  - subst o. auto.
Qed.

(** ** An acknowledgement that makes nothing be sent again *)
Definition holds {A B} (f : socket -> B) (m : M A) : Prop := forall s, f (sk (snd (m s))) = f (sk s) /\ w_in (wd (snd (m s))) = w_in (wd s) /\ w_sent (wd (snd (m s))) = w_sent (wd s) /\
  w_chk (wd (snd (m s))) = w_chk (wd s).
Section Holds.
  Context {B : Type} (f : socket -> B).
  Lemma holds_ret {A} (a : A) : holds f (ret a). Proof. intros s. auto. Qed.
  Lemma holds_fail {A} e : holds f (@fail A e). Proof. intros s. auto. Qed.
  Lemma holds_bind {A C} (m : M A) (g : A -> M C) : holds f m -> (forall a, holds f (g a)) -> holds f (bind m g).
  Proof.
    intros H1 H2 s. specialize (H1 s). unfold bind. destruct (m s) as [[a|e] s1]; cbn [snd] in *; [|exact H1]. destruct (H2 a s1) as (E1 & E2 & E3 & E4), H1 as (F1 & F2 & F3 & F4).
    rewrite E1, E2, E3, E4. auto.
  Qed.
  Lemma holds_upd g : (forall k, f (g k) = f k) -> holds f (upd_sk g). Proof. intros H s. repeat split. apply H. Qed.
  Lemma holds_get : holds f get_sk. Proof. intros s. auto. Qed.
  Lemma holds_now : holds f now_microseconds. Proof. intros s. auto. Qed.
  Lemma holds_arith l lo hi wr v : holds f (arith l lo hi wr v). Proof. intros s. unfold arith. destruct (_ && _); auto. Qed.
  Lemma holds_unwrap {A} l (o : option A) : holds f (unwrap l o). Proof. destruct o; [apply holds_ret|apply holds_fail]. Qed.
End Holds.
Ltac holds := repeat first [progress cbv zeta | apply holds_bind; [|intros ?] | apply holds_ret | apply holds_get | apply holds_now | apply holds_unwrap | apply holds_fail |
  match goal with |- holds _ (match ?x with _ => _ end) => destruct x | |- holds _ (if ?x then _ else _) => destruct x end |
  match goal with |- holds _ (ck_u16 _ _) => unfold ck_u16 | |- holds _ (ck_u32 _ _) => unfold ck_u32 | |- holds _ (ck_i32 _ _) => unfold ck_i32 | |- holds _ (ck_i64 _ _) => unfold ck_i64 | |- holds _ (ck_u64 _ _) => unfold ck_u64 end |
  apply holds_arith | (apply holds_upd; intros ?; try reflexivity)].
Lemma holds_process_ack i : holds (fun k => (others k, s_send_window k, s_duplicate_ack_count k, s_last_acked k)) (process_ack i).
Proof.
  unfold process_ack, update_base_delay, update_current_delay, queuing_delay, update_congestion_window, update_congestion_timeout. holds.
  unfold base_delay_socket. destruct (_ || _); cbv zeta; [reflexivity|]. destruct (_ <? _); reflexivity.
Qed.
Lemma holds_drop n : holds others (drop_acked n). Proof. induction n as [|n IH]; cbn [drop_acked]; holds. exact IH. Qed.
Lemma holds_advance : holds others advance_send_window. Proof. unfold advance_send_window. holds. apply holds_drop. Qed.
Lemma exts_plain rec a exts loss s : existsb (fun e => is_sack (ext_ty e)) exts = false -> process_extensions rec a exts loss s = (Ret loss, s).
Proof. induction exts as [|e exts IH]; cbn [existsb process_extensions]; [reflexivity|]. intros H. apply orb_false_elim in H as [-> H]. auto. Qed.
Lemma state_plain rec p s : simple_ack p (sk s) -> 0 <= s_duplicate_ack_count (sk s) < 4294967296 -> let s' := snd (handle_state_packet rec p s) in
  others (sk s') = others (sk s) /\ w_in (wd s') = w_in (wd s) /\ w_sent (wd s') = w_sent (wd s).
Proof.
  intros [HX HD] HR. cbv zeta. destruct (handle_state_packet rec p s) as [o s'] eqn:EH. cbn [snd]. revert EH. unfold handle_state_packet.
  assert (N : let s1 := snd (note_ack (ack_nr p) s) in others (sk s1) = others (sk s) /\ w_in (wd s1) = w_in (wd s) /\ w_sent (wd s1) = w_sent (wd s) /\ s_send_window (sk s1) = s_send_window (sk s) /\
    (fst (note_ack (ack_nr p) s) = Ret tt -> s_send_window (sk s) = [] \/ s_duplicate_ack_count (sk s1) <> 3)).
  { cbv zeta. unfold note_ack, bind, get_sk, upd_sk, now_microseconds. destruct (_ =? _) eqn:E.
    - unfold ck_u32, arith. destruct (_ && _) eqn:EC; cbn; [repeat split; discriminate|]. repeat split. intros _. destruct HD as [HD|HD]; [now left|right].
      intros H3. change (u32 (s_duplicate_ack_count (sk s) + 1) = 3) in H3. destruct (Z.eq_dec (s_duplicate_ack_count (sk s) + 1) 4294967296) as [E1|E1]; [rewrite E1 in H3; discriminate|].
      rewrite u32_small in H3 by lia. lia.
    - cbn. repeat split. intros _. right. lia. }
  destruct N as (N1 & N2 & N3 & N4 & N5). unfold bind at 1. destruct (note_ack (ack_nr p) s) as [[[]|e] s1]; cbn [fst snd] in *; [|intros [= <- <-]; auto]. specialize (N5 eq_refl).
  unfold bind at 1, get_sk at 1. unfold bind at 1.
  set (m := match position _ _ with Some index => process_ack index | None => ret tt end).
  assert (HM : holds (fun k => (others k, s_send_window k, s_duplicate_ack_count k, s_last_acked k)) m) by (unfold m; destruct (position _ _); [apply holds_process_ack|apply holds_ret]).
  specialize (HM s1). destruct (m s1) as [[[]|e] s2]; cbn [snd] in *; destruct HM as (M1 & M2 & M3 & _); injection M1; intros ? ? ? ? ? ? ? ? ? ? ? ? ? ? ? ?; [|intros [= <- <-]; split; [rewrite <- N1; unfold others; congruence|split; congruence]].
  assert (O2 : others (sk s2) = others (sk s)) by (rewrite <- N1; unfold others; congruence). rewrite <- O2, <- N2, <- N3, <- M2, <- M3. clear O2.
  unfold bind at 1, get_sk at 1. cbv zeta. unfold bind at 1. destruct (extensions p) as [exts|] eqn:EX; cbn [unwrap ret fail]; [|intros [= <- <-]; auto]. specialize (HX exts eq_refl).
  unfold bind at 1. rewrite exts_plain by exact HX. unfold finish_state_packet, bind at 1, get_sk at 1.
  assert (EL : negb (is_nil (s_send_window (sk s2))) && (s_duplicate_ack_count (sk s2) =? 3) = false).
  { destruct N5 as [N5|N5]; [replace (s_send_window (sk s2)) with (@nil packet) by congruence; reflexivity|]. replace (s_duplicate_ack_count (sk s2) =? 3) with false by lia. apply andb_false_r. }
  rewrite EL. cbn [andb]. unfold bind at 1, ret at 1. unfold bind at 1, ret at 1. intros EH. destruct (holds_advance s2) as (A1 & A2 & A3 & _). rewrite EH in *. auto.
Qed.
Lemma ack_table p src s : reachable s -> get_type p = Some PState -> s_state (sk s) = Connected -> own_id (sk s) p -> simple_ack p (sk s) ->
  let s' := snd (handle_packet recv p src s) in
  others (sk s') = others (snd (table src p PState (clock_now s) 0 0 (sk s))) /\ w_in (wd s') = w_in (wd s) /\ w_sent (wd s') = w_sent (wd s).
Proof.
  intros HR HT HS HO HP. cbv zeta. rewrite (handle_own recv p src PState s HT (or_introl HO)), noted_seen.
  assert (EF : foreign (sk s) PState p = false). { destruct (foreign (sk s) PState p) eqn:E; [|reflexivity]. apply foreign_spec in E as (_ & _ & E). contradiction. }
  unfold table. rewrite EF, HS. cbn [snd]. fold (seen p (clock_now s) (sk s)). unfold dispatch.
  destruct (state_plain recv p (mkSt (seen p (clock_now s) (sk s)) (wd (ticked s))) HP (r_dup _ (reachable_ranges s HR))) as (E1 & E2 & E3).
  assert (ED : forall m : M (option packet), m = (handle_state_packet recv p ;;; ret None) -> sk (snd (m (mkSt (seen p (clock_now s) (sk s)) (wd (ticked s))))) = sk (snd (handle_state_packet recv p (mkSt (seen p (clock_now s) (sk s)) (wd (ticked s))))) /\
    wd (snd (m (mkSt (seen p (clock_now s) (sk s)) (wd (ticked s))))) = wd (snd (handle_state_packet recv p (mkSt (seen p (clock_now s) (sk s)) (wd (ticked s)))))).
  { intros m ->. unfold bind. destruct (handle_state_packet recv p _) as [[]]; auto. }
  match goal with |- context [bind get_sk ?f ?x] => change (bind get_sk f x) with (f (sk x) x) end. cbv beta. change (s_state (sk _)) with (s_state (sk s)). rewrite HS.
  destruct (ED _ eq_refl) as [-> ->]. rewrite E1, E2, E3. auto.
Qed.
