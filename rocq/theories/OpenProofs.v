(** Lemmas for C66 and C67: a connection attempt that is answered; the delay echoed to the peer. *)
From Verif Require Export ConnProofs SendProofs UtilProofs.
Require Import ZifyBool ZifyNat ZifyN.
Local Open Scope Z_scope.
Ltac Zify.zify_post_hook ::= Z.div_mod_to_equations.

(** ** C66 *)
(** The socket a client has once its SYN has been answered by [p] from [src]: [r] is the random draw for its ids. *)
Definition established_by (p : packet) (src : addr) (r : Z) (k : socket) : Prop :=
  s_state k = Connected /\ s_connected_to k = src /\ s_ack_nr k = seq_nr p /\ s_seq_nr k = 2 /\ s_last_acked k = ack_nr p /\
  s_receiver_connection_id k = Z.min r 65534 /\ s_sender_connection_id k = Z.min r 65534 + 1 /\ s_remote_wnd_size k = wnd_size p /\
  s_incoming_buffer k = [] /\ s_pending_data k = [] /\ s_send_window k = [] /\ s_unsent_queue k = [] /\ s_curr_window k = 0 /\ s_cwnd k = 2800 /\
  s_last_dropped k = 0 /\ s_max_retries k = 5.
Lemma syn_loop_replied cid sq ks d src rest : forall ts tries s, (length ks < tries)%nat -> w_in (wd s) = map RxErr ks ++ RxDgram d src :: rest ->
  Forall (fun k => is_timeout k = true) ks -> all_sent s ->
  exists s', syn_loop tries (wire (mkHdr PSyn cid ts 0 0 sq 0) [] []) s = (Ret (firstn 1500 d), s') /\ w_in (wd s') = rest /\
   sk s' = ss_connected_to src (ss_state SynSent (sk s)) /\ w_send (wd s') = w_send (wd s) /\ w_chk (wd s') = w_chk (wd s) /\
   exists syns, w_sent (wd s') = w_sent (wd s) ++ syns /\ length syns = S (length ks) /\ syns_to (s_connected_to (sk s)) cid sq syns.
Proof.
  induction ks as [|k ks IH]; intros ts tries s HN HI HF HA; destruct tries as [|tries]; try (cbn in HN; lia); cbn [syn_loop].
  - unfold bind at 1, now_microseconds. cbv zeta. unfold bind at 1, get_sk at 1. unfold bind at 1. rewrite set_ts_wire. cbn [h_type h_cid h_tsd h_wnd h_seq h_ack].
    fold (ticked s). rewrite send_ok_eq by (apply all_sent_ok; exact HA). cbn [try_]. unfold bind at 1, ret at 1. unfold bind at 1, upd_sk at 1. unfold bind at 1, udp_recv.
    assert (HA' : all_sent (ticked s)) by exact HA. unfold tx_state. rewrite (all_sent_ok _ HA'). unfold ticked. sproj. rewrite HI. cbn [map app].
    unfold bind, upd_sk, ret. eexists. split; [reflexivity|]. sproj. repeat split. eexists. split; [reflexivity|]. split; [reflexivity|].
    constructor; [|constructor]. split; [reflexivity|]. eexists. split; [|reflexivity]. apply micros_range.
  - inversion HF as [|? ? HK HF']; subst. unfold bind at 1, now_microseconds. cbv zeta. unfold bind at 1, get_sk at 1. unfold bind at 1. rewrite set_ts_wire. cbn [h_type h_cid h_tsd h_wnd h_seq h_ack].
    fold (ticked s). rewrite send_ok_eq by (apply all_sent_ok; exact HA). cbn [try_]. unfold bind at 1, ret at 1. unfold bind at 1, upd_sk at 1. unfold bind at 1, udp_recv.
    assert (HA' : all_sent (ticked s)) by exact HA. unfold tx_state. rewrite (all_sent_ok _ HA'). unfold ticked. sproj. rewrite HI. cbn [map app]. rewrite HK.
    match goal with |- context [syn_loop tries (wire (mkHdr PSyn cid ?ts' 0 0 sq 0) [] []) ?t] => destruct (IH ts' tries t) as (s' & E & I1 & K1 & S1 & C1 & syns & L1 & N1 & F1) end; auto; [cbn in HN; lia|].
    rewrite E. exists s'. split; [reflexivity|]. split; [exact I1|]. rewrite K1. sproj. split; [reflexivity|]. split; [exact S1|]. split; [exact C1|]. eexists. rewrite L1. sproj. rewrite <- app_assoc. split; [reflexivity|].
    split; [cbn [length app]; now rewrite N1|]. constructor; [|exact F1]. split; [reflexivity|]. eexists. split; [|reflexivity]. apply micros_range.
Qed.
Lemma synsent_dispatch rec p src u : s_state (sk u) = SynSent -> s_seq_nr (sk u) = 1 ->
  exists s' t, dispatch rec p PState src u = (Ret None, s') /\ w_sent (wd s') = w_sent (wd u) /\ w_in (wd s') = w_in (wd u) /\
    sk s' = ss_last_acked_timestamp t (ss_last_acked (ack_nr p) (ss_state Connected (ss_seq_nr 2 (ss_ack_nr (seq_nr p) (ss_connected_to src (sk u)))))).
Proof.
  intros EN EQ. unfold dispatch, bind at 1, get_sk at 1. rewrite EN. unfold bind at 1, upd_sk at 1. unfold bind at 1. rewrite EQ. unfold ck_u16. rewrite arith_fits by (try reflexivity; lia).
  unfold bind at 1, upd_sk at 1. unfold bind at 1, now_microseconds. unfold bind, upd_sk, ret. eexists. eexists. split; [reflexivity|]. split; [reflexivity|]. split; [reflexivity|]. reflexivity.
Qed.
Lemma synsent_acked p src d k : ss_ack_nr (seq_nr p) (ss_connected_to src (ss_their_delay d (ss_remote_wnd_size (wnd_size p) (acked_sk p k)))) =
  ss_ack_nr (seq_nr p) (ss_connected_to src (ss_their_delay d (ss_remote_wnd_size (wnd_size p) k))).
Proof. unfold acked_sk. destruct (_ =? 1); reflexivity. Qed.
Lemma synsent_state rec p src s : get_type p = Some PState -> s_state (sk s) = SynSent -> s_seq_nr (sk s) = 1 ->
  exists s', handle_packet rec p src s = (Ret None, s') /\ w_sent (wd s') = w_sent (wd s) /\ w_in (wd s') = w_in (wd s) /\
    exists d t, 0 <= d < 2 ^ 32 /\ sk s' = ss_last_acked_timestamp t (ss_last_acked (ack_nr p) (ss_state Connected (ss_seq_nr 2 (ss_ack_nr (seq_nr p) (ss_connected_to src
      (ss_their_delay d (ss_remote_wnd_size (wnd_size p) (sk s)))))))).
Proof.
  intros HT HS HQ. rewrite (handle_own rec p src PState s HT) by auto.
  assert (EN : s_state (sk (noted p s)) = SynSent) by (unfold noted; sproj; rewrite (acked_other s_state) by reflexivity; exact HS).
  assert (EQ : s_seq_nr (sk (noted p s)) = 1) by (unfold noted; sproj; rewrite (acked_other s_seq_nr) by reflexivity; exact HQ).
  destruct (synsent_dispatch rec p src (noted p s) EN EQ) as (s' & t & E & H1 & H2 & H3). exists s'. split; [exact E|]. split; [exact H1|]. split; [exact H2|].
  exists (abs_diff (clock_now s) (timestamp p)), t. split; [apply abs_diff_range; [apply micros_range|apply timestamp_range]|].
  rewrite H3. unfold noted. cbn [sk]. rewrite synsent_acked. reflexivity.
Qed.
Lemma connect_opens a l ks d src p rest s0 : w_in (wd s0) = map RxErr ks ++ RxDgram d src :: rest -> Forall (fun k => is_timeout k = true) ks -> (length ks < 5)%nat -> all_sent s0 ->
  packet_try_from (firstn 1500 d) = Some (Ok p) -> get_type p = Some PState ->
  exists s' syns, connect (Ok (a :: l)) (Ok tt) s0 = (Ret tt, s') /\ established_by p src (next_random s0) (sk s') /\ w_in (wd s') = rest /\
    w_sent (wd s') = w_sent (wd s0) ++ syns /\ length syns = S (length ks) /\ syns_to a (s_receiver_connection_id (sk s')) 1 syns.
Proof.
  intros HI HF HN HA HP HT. unfold connect, take_address. unfold bind at 1, ret at 1. unfold bind at 1.
  unfold bind_socket, take_address, try_, from_raw_parts. unfold bind at 1, ret at 1. unfold bind at 1, ret at 1. unfold bind at 1. rewrite random_u16_eq.
  unfold upd_sk at 1. unfold bind at 1, upd_sk at 1. unfold bind at 1, get_sk at 1. unfold bind at 1. rewrite syn_packet_wire.
  cbn [sk wd]. set (k0 := fresh_socket (sequential_identifiers (next_random s0)) _). set (t := mkSt (ss_connected_to a k0) _).
  assert (EL : w_sent (wd t) = w_sent (wd s0)) by reflexivity. assert (EI : w_in (wd t) = map RxErr ks ++ RxDgram d src :: rest) by exact HI. assert (EA : all_sent t) by exact HA.
  match goal with |- context [wire (mkHdr PSyn ?c 0 0 0 ?q 0) [] []] => destruct (syn_loop_replied c q ks d src rest 0 MAX_SYN_RETRIES t HN EI HF EA) as (s' & E & I1 & K1 & _ & _ & syns & L1 & N1 & F1) end.
  rewrite E. unfold bind at 1, get_sk at 1. unfold bind at 1. rewrite HP. cbn [unwrap]. unfold ret at 1. unfold bind at 1.
  destruct (synsent_state recv p (s_connected_to (sk s')) s' HT) as (s2 & E2 & L2 & I2 & dl & ts & _ & K2); [rewrite K1; reflexivity..|].
  rewrite E2. exists s2, syns. split; [reflexivity|]. rewrite L2, I2, I1, L1.
  assert (HR : 0 <= next_random s0 < 65536) by (unfold next_random; apply Z.mod_pos_bound; lia).
  assert (HID : fst (sequential_identifiers (next_random s0)) = Z.min (next_random s0) 65534 /\ snd (sequential_identifiers (next_random s0)) = Z.min (next_random s0) 65534 + 1).
  { unfold sequential_identifiers. change (2 ^ 16) with 65536. destruct (next_random s0 + 1 <? 65536) eqn:EB; cbn [fst snd]; lia. }
  destruct HID as [HI1 HI2]. rewrite K2, K1. unfold established_by, t, k0, fresh_socket in *. sproj. sproj_in F1. rewrite HI1, HI2. rewrite HI1 in F1. repeat split; auto.
Qed.

(** ** C67 *)
Lemma transmit_echo p s p' s' : 0 <= s_their_delay (sk s) < 2 ^ 32 -> (20 <= length p)%nat -> transmit p s = (Ret p', s') ->
  (p' = p /\ w_sent (wd s') = w_sent (wd s)) \/
  (w_sent (wd s') = w_sent (wd s) ++ [(s_connected_to (sk s), p')] /\ timestamp_difference p' = s_their_delay (sk s) /\ timestamp p' = clock_now s).
Proof.
  intros HD HL. unfold transmit, bind at 1, get_sk at 1. destruct (_ <? _); [intros H; injection H as <- <-; auto|]. unfold bind at 1, now_microseconds. cbv zeta. fold (ticked s).
  unfold bind, udp_send. destruct (w_send _ _); cbn [try_ ret throw]; intros H; try discriminate. injection H as <- <-. right. split; [reflexivity|].
  pose proof (proj1 (proj2 (c04_ts p (clock_now s) HL))) as H1. pose proof (proj1 (c04_ts p (clock_now s) HL)) as H0.
  assert (HL2 : (20 <= length (set_timestamp (clock_now s) p))%nat) by (destruct H0 as (-> & _); exact HL).
  pose proof (proj1 (proj2 (c04_tsd _ (s_their_delay (sk s)) HL2))) as H2. unfold header_view in H1, H2. injection H1 as _ E1 _ _ _ _. injection H2 as _ E2 E3 _ _ _.
  unfold clock_now in *. rewrite E3, E2, E1. rewrite !u32_small by (try apply micros_range; exact HD). auto.
Qed.
Lemma transmit_echo_all p s p' s' : (20 <= length p)%nat -> transmit p s = (Ret p', s') -> sk s' = sk s /\
  ((p' = p /\ w_sent (wd s') = w_sent (wd s)) \/
   (w_sent (wd s') = w_sent (wd s) ++ [(s_connected_to (sk s), p')] /\ timestamp_difference p' = s_their_delay (sk s) mod 2 ^ 32 /\ timestamp p' = clock_now s)).
Proof.
  intros HL H. split.
  - revert H. unfold transmit, bind at 1, get_sk at 1. destruct (_ <? _); [intros H; now injection H as <- <-|]. unfold bind at 1, now_microseconds. cbv zeta.
    unfold bind, udp_send. destruct (w_send _ _); cbn [try_ ret throw]; intros H; try discriminate. now injection H as <- <-.
  - revert H. unfold transmit, bind at 1, get_sk at 1. destruct (_ <? _); [intros H; injection H as <- <-; auto|]. unfold bind at 1, now_microseconds. cbv zeta. fold (ticked s).
    unfold bind, udp_send. destruct (w_send _ _); cbn [try_ ret throw]; intros H; try discriminate. injection H as <- <-. right. split; [reflexivity|].
    pose proof (proj1 (proj2 (c04_ts p (clock_now s) HL))) as H1. pose proof (proj1 (c04_ts p (clock_now s) HL)) as H0.
    assert (HL2 : (20 <= length (set_timestamp (clock_now s) p))%nat) by (destruct H0 as (-> & _); exact HL).
    pose proof (proj1 (proj2 (c04_tsd _ (s_their_delay (sk s)) HL2))) as H2. unfold header_view in H1, H2. injection H1 as _ E1 _ _ _ _. injection H2 as _ E2 E3 _ _ _.
    unfold clock_now in *. rewrite E3, E2, E1. rewrite (u32_small (micros_of_clock _)) by apply micros_range. rewrite u32_eq. auto.
Qed.
Lemma send_packet_echo rec p s p' s' : (20 <= length p)%nat -> send_packet rec p s = (Ret p', s') -> exists t, sk t = sk s' /\
  ((p' = p /\ w_sent (wd s') = w_sent (wd t)) \/
   (w_sent (wd s') = w_sent (wd t) ++ [(s_connected_to (sk s'), p')] /\ timestamp_difference p' = s_their_delay (sk s') mod 2 ^ 32 /\ timestamp p' = clock_now t)).
Proof.
  intros HL H. rewrite send_packet_split in H. unfold bind in H. destruct (gate _ _ _ _) as [[[]|] t]; [|discriminate].
  exists t. destruct (transmit_echo_all _ _ _ _ HL H) as [-> HH]. auto.
Qed.
(** Receiving: the delay is noted for every packet of the connection. *)
Lemma advance_window_delay s : wp advance_send_window (fun o s' => match o with Ret _ => s_their_delay (sk s') = s_their_delay (sk s) | _ => True end) s.
Proof.
  unfold advance_send_window. do 2 wstep. destruct (position _ _) as [pos|] eqn:EP; [|wstep; reflexivity].
  eapply wp_conseq; [apply (drop_acked_spec G0 W0 G0_valid W0_ts W0_tsd); [apply position_lt in EP; lia|lia]|]. intros [[]|] s' H; [|exact I]. cbv beta iota in H. subst s'. reflexivity.
Qed.
Lemma attach_sack_sk p r s r' s' : attach_sack p r s = (Ret r', s') -> sk s' = sk s.
Proof.
  unfold attach_sack, bind at 1, get_sk at 1. destruct (1 <? _); [|intros H; now injection H as <- <-]. unfold bind at 1.
  assert (HB : forall o t, build_selective_ack s = (o, t) -> t = s).
  { intros o t. unfold build_selective_ack, bind, get_sk, ck_u16, arith, unwrap, ret, fail. destruct (is_nil _); [|destruct (_ && _)]; try destruct (sack_build _ _ _); intros H; now injection H as <- <-. }
  destruct (build_selective_ack s) as [[sack|] t] eqn:E; [|discriminate]. rewrite (HB _ _ eq_refl). destruct (is_nil sack); [intros H; now injection H as <- <-|].
  unfold unwrap, ret, fail. destruct (set_sack _ _); intros H; [now injection H as <- <-|discriminate].
Qed.
Lemma noted_delay rec p src ty s r s' : get_type p = Some ty -> own_id (sk s) p \/ ty = PSyn \/ s_state (sk s) = SynSent -> ~ (ty = PState /\ s_state (sk s) = Connected) ->
  handle_packet rec p src s = (Ret r, s') -> s_their_delay (sk s') = Z.abs (clock_now s - timestamp p).
Proof.
  intros HT HO HC H. rewrite (handle_own rec p src ty s HT HO) in H.
  assert (EN : s_state (sk (noted p s)) = s_state (sk s)) by (unfold noted; sproj; now rewrite (acked_other s_state)).
  assert (ED : s_their_delay (sk (noted p s)) = Z.abs (clock_now s - timestamp p)) by (unfold noted; sproj; apply abs_diff_abs).
  rewrite <- ED. unfold dispatch, bind at 1, get_sk at 1 in H. rewrite EN in H. generalize dependent (noted p s). intros t H EN ED.
  destruct ty; destruct (s_state (sk s)) eqn:ES; try (exfalso; apply HC; auto; fail); try discriminate;
    unfold handle_data_packet in H; unfold bind, get_sk, upd_sk in H; repeat rewrite prepare_reply_eq in H;
    try (destruct (attach_sack p _ _) as [[x|] u] eqn:EA; [|discriminate]; apply attach_sack_sk in EA);
    cbv beta iota in H; unfold random_u16, ck_u16, arith, ret, now_microseconds in H; cbv beta iota zeta in H; try rewrite prepare_reply_eq in H;
    repeat match type of H with context [if ?b then _ else _] => destruct b end; cbv beta iota zeta in H; try rewrite prepare_reply_eq in H; try discriminate; try (injection H as <- <-; sproj; try rewrite EA; reflexivity).

Qed.
Lemma noted_delay_state rec p src exts s r s' : get_type p = Some PState -> own_id (sk s) p -> s_state (sk s) = Connected -> extensions p = Some exts -> no_sack exts ->
  (s_send_window (sk s) = [] \/ dup_after (ack_nr p) (sk s) <> 3) ->
  handle_packet rec p src s = (Ret r, s') -> s_their_delay (sk s') = Z.abs (clock_now s - timestamp p).
Proof.
  intros HT HO HC HE HN HD H. rewrite (handle_own rec p src PState s HT (or_introl HO)) in H.
  assert (EN : s_state (sk (noted p s)) = Connected) by (unfold noted; sproj; now rewrite (acked_other s_state)).
  assert (ED : s_their_delay (sk (noted p s)) = Z.abs (clock_now s - timestamp p)) by (unfold noted; sproj; apply abs_diff_abs).
  assert (HL : negb (is_nil (s_send_window (sk (noted p s)))) && (dup_after (ack_nr p) (sk (noted p s)) =? 3) = false).
  { unfold noted, dup_after; sproj. rewrite (acked_other s_send_window), (acked_other s_last_acked), (acked_other s_duplicate_ack_count) by reflexivity. fold (dup_after (ack_nr p) (sk s)).
    destruct HD as [->|HD]; [reflexivity|]. replace (_ =? 3) with false by lia. apply andb_false_r. }
  rewrite <- ED. unfold dispatch, bind at 1, get_sk at 1 in H. rewrite EN in H. generalize dependent (noted p s). intros t H EN ED HL.
  unfold bind at 1 in H. destruct (handle_state_packet rec p t) as [[[]|] s1] eqn:E; [|discriminate]. injection H as <- <-.
  rewrite handle_state_split in E. refine (wp_eq _ (fun o s' => o = Ret tt -> s_their_delay (sk s') = s_their_delay (sk t)) t _ _ E _ eq_refl). clear E s1.
  apply wp_bind. eapply wp_conseq; [apply acked_start_wp|]. intros [[]|] s1 H; [|discriminate]. cbv beta iota in H. destruct H as (H1 & H2 & H3 & H4 & H5 & H6 & H7 & H8 & H9).
  do 2 wstep. cbv zeta. rewrite H1, H3, HE. cbn [unwrap]. do 2 wstep. wstep. unfold wp at 1. rewrite no_sack_pass by exact HN. cbn [fst snd].
  unfold finish_state_packet. do 2 wstep. rewrite H1, H3, HL. cbn [andb]. do 4 wstep.
  eapply wp_conseq; [apply advance_window_delay|]. intros [[]|] s2 H; [|discriminate]. intros _. congruence.
Qed.

(** ** C69 *)
Lemma flush_keeps_world n s : wp (flush_incoming_buffer n) (fun _ s' => wd s' = wd s) s.
Proof.
  unfold flush_incoming_buffer. do 2 wstep. destruct (negb _).
  - cbv zeta. wstep. destruct (_ =? _)%nat; unfold advance_incoming_buffer; repeat wstep; reflexivity.
  - destruct (s_incoming_buffer (sk s)) as [|q l]; [wstep; reflexivity|].
    assert (HT : forall t, wd t = wd s -> wp (pl <- unwrap 576 (payload q) ;; (if (length (firstn n pl) =? length pl)%nat then advance_incoming_buffer else upd_sk (ss_pending_data (skipn (length (firstn n pl)) pl))) ;;; ret (firstn n pl)) (fun _ s' => wd s' = wd s) t).
    { intros t Ht. wstep. apply wp_unwrap; [|intros; exact Ht]. intros pl _. cbv zeta. wstep. destruct (_ =? _)%nat; unfold advance_incoming_buffer; repeat wstep; exact Ht. }
    wstep. destruct (_ =? seq_nr q).
    + wstep. apply HT. reflexivity.
    + wstep; wstep; [intros; reflexivity|intros _]. wstep. destruct (_ =? seq_nr q); [apply HT; reflexivity|wstep; reflexivity].
Qed.
Lemma reply_window rec n b src p r s s1 : packet_try_from b = Some (Ok p) -> handle_packet rec p src s = (Ret (Some r), s1) -> tx_ok s1 = true -> (20 <= length r)%nat ->
  wnd_size (set_wnd_size 1048576 r) = 1048576 /\
  exists more, w_sent (wd (snd (process_datagram rec n b src s))) = w_sent (wd s1) ++ (src, set_wnd_size 1048576 r) :: more.
Proof.
  intros HP HH HX HL. split.
  { pose proof (proj1 (proj2 (c04_wnd r 1048576 HL))) as H. unfold header_view in H. injection H as _ _ _ -> _ _. reflexivity. }
  assert (HV : valid p) by (destruct (parse_inv _ _ HP) as [-> _]; exact HP).
  apply valid_type in HV as [ty HT]. rewrite (process_packet rec n b src p ty s HP HT). unfold bind at 1. rewrite HH.
  unfold answer, bind at 1, bind at 1. rewrite send_ok_eq by exact HX. cbn [try_]. unfold ret at 1. unfold bind at 1, get_sk at 1. unfold bind at 1.
  assert (EA : forall (c : bool) t, w_sent (wd t) = w_sent (wd s1) ++ [(src, set_wnd_size 1048576 r)] ->
    exists t', (if c then insert_into_buffer p else ret tt) t = (Ret tt, t') /\ w_sent (wd t') = w_sent (wd s1) ++ [(src, set_wnd_size 1048576 r)]).
  { intros [] t Ht; eexists; (split; [reflexivity|exact Ht]). }
  match goal with |- context [(if ?c then _ else _) ?t] => destruct (EA c t) as (t' & -> & HT') end.
  { unfold tx_state. rewrite HX. reflexivity. }
  exists []. unfold bind. pose proof (flush_keeps_world n t') as HF. unfold wp in HF. destruct (flush_incoming_buffer n t') as [[dd|] u]; cbn [fst snd ret] in *; rewrite HF; exact HT'.
Qed.
Lemma advance_window_remote s : wp advance_send_window (fun o s' => match o with Ret _ => s_remote_wnd_size (sk s') = s_remote_wnd_size (sk s) | _ => True end) s.
Proof.
  unfold advance_send_window. do 2 wstep. destruct (position _ _) as [pos|] eqn:EP; [|wstep; reflexivity].
  eapply wp_conseq; [apply (drop_acked_spec G0 W0 G0_valid W0_ts W0_tsd); [apply position_lt in EP; lia|lia]|]. intros [[]|] s' H; [|exact I]. cbv beta iota in H. subst s'. reflexivity.
Qed.
Lemma noted_window rec p src ty s r s' : get_type p = Some ty -> own_id (sk s) p \/ ty = PSyn \/ s_state (sk s) = SynSent -> ~ (ty = PState /\ s_state (sk s) = Connected) ->
  handle_packet rec p src s = (Ret r, s') -> s_remote_wnd_size (sk s') = wnd_size p.
Proof.
  intros HT HO HC H. rewrite (handle_own rec p src ty s HT HO) in H.
  assert (EN : s_state (sk (noted p s)) = s_state (sk s)) by (unfold noted; sproj; now rewrite (acked_other s_state)).
  assert (ED : s_remote_wnd_size (sk (noted p s)) = wnd_size p) by (unfold noted; sproj; reflexivity).
  rewrite <- ED. unfold dispatch, bind at 1, get_sk at 1 in H. rewrite EN in H. generalize dependent (noted p s). intros t H EN ED.
  destruct ty; destruct (s_state (sk s)) eqn:ES; try (exfalso; apply HC; auto; fail); try discriminate;
    unfold handle_data_packet in H; unfold bind, get_sk, upd_sk in H; repeat rewrite prepare_reply_eq in H;
    try (destruct (attach_sack p _ _) as [[x|] u] eqn:EA; [|discriminate]; apply attach_sack_sk in EA);
    cbv beta iota in H; unfold random_u16, ck_u16, arith, ret, now_microseconds in H; cbv beta iota zeta in H; try rewrite prepare_reply_eq in H;
    repeat match type of H with context [if ?b then _ else _] => destruct b end; cbv beta iota zeta in H; try rewrite prepare_reply_eq in H; try discriminate; try (injection H as <- <-; sproj; try rewrite EA; reflexivity).

Qed.
Lemma noted_window_state rec p src exts s r s' : get_type p = Some PState -> own_id (sk s) p -> s_state (sk s) = Connected -> extensions p = Some exts -> no_sack exts ->
  (s_send_window (sk s) = [] \/ dup_after (ack_nr p) (sk s) <> 3) ->
  handle_packet rec p src s = (Ret r, s') -> s_remote_wnd_size (sk s') = wnd_size p.
Proof.
  intros HT HO HC HE HN HD H. rewrite (handle_own rec p src PState s HT (or_introl HO)) in H.
  assert (EN : s_state (sk (noted p s)) = Connected) by (unfold noted; sproj; now rewrite (acked_other s_state)).
  assert (ED : s_remote_wnd_size (sk (noted p s)) = wnd_size p) by (unfold noted; sproj; reflexivity).
  assert (HL : negb (is_nil (s_send_window (sk (noted p s)))) && (dup_after (ack_nr p) (sk (noted p s)) =? 3) = false).
  { unfold noted, dup_after; sproj. rewrite (acked_other s_send_window), (acked_other s_last_acked), (acked_other s_duplicate_ack_count) by reflexivity. fold (dup_after (ack_nr p) (sk s)).
    destruct HD as [->|HD]; [reflexivity|]. replace (_ =? 3) with false by lia. apply andb_false_r. }
  rewrite <- ED. unfold dispatch, bind at 1, get_sk at 1 in H. rewrite EN in H. generalize dependent (noted p s). intros t H EN ED HL.
  unfold bind at 1 in H. destruct (handle_state_packet rec p t) as [[[]|] s1] eqn:E; [|discriminate]. injection H as <- <-.
  rewrite handle_state_split in E. refine (wp_eq _ (fun o s' => o = Ret tt -> s_remote_wnd_size (sk s') = s_remote_wnd_size (sk t)) t _ _ E _ eq_refl). clear E s1.
  apply wp_bind. eapply wp_conseq; [apply acked_start_wp|]. intros [[]|] s1 H; [|discriminate]. cbv beta iota in H. destruct H as (H1 & H2 & H3 & H4 & H5 & H6 & H7 & H8 & H9).
  do 2 wstep. cbv zeta. rewrite H1, H3, HE. cbn [unwrap]. do 2 wstep. wstep. unfold wp at 1. rewrite no_sack_pass by exact HN. cbn [fst snd].
  unfold finish_state_packet. do 2 wstep. rewrite H1, H3, HL. cbn [andb]. do 4 wstep.
  eapply wp_conseq; [apply advance_window_remote|]. intros [[]|] s2 H; [|discriminate]. intros _. congruence.
Qed.

(** ** C70, C71 *)
Lemma first_reply_unique evs b b' : first_reply evs b -> first_reply evs b' -> b = b'.
Proof.
  intros (ks & d & src & rest & E & HF & _ & ->) (ks' & d' & src' & rest' & E' & HF' & _ & ->). rewrite E in E'. clear E. revert ks' E' HF'.
  induction ks as [|k ks IH]; intros [|k' ks'] E' HF'; cbn [map app] in E'; try discriminate; [now injection E' as -> _ _|]. injection E' as -> E'. inversion HF; inversion HF'; subst. eauto.
Qed.
Lemma flush_zero s : reachable s -> w_chk (wd s) = false -> exists s', flush_incoming_buffer 0 s = (Ret [], s') /\ wd s' = wd s /\ s_state (sk s') = s_state (sk s) /\ s_max_retries (sk s') = s_max_retries (sk s).
Proof.
  intros HR HC. pose proof (r_ack _ (reachable_ranges s HR)) as H0. rewrite flush_run; [|left; exact HC|lia|apply reachable_buffer, HR].
  assert (HF : fst (flush_sk 0 (sk s)) = []).
  { unfold flush_sk. destruct (s_pending_data (sk s)) as [|x l0]; [|reflexivity].
    destruct (s_incoming_buffer (sk s)) as [|q l]; [reflexivity|]. destruct (_ || _); [|reflexivity]. destruct (payload q) as [[|]|]; reflexivity. }
  rewrite HF. eexists. split; [reflexivity|]. sproj. split; [reflexivity|].
  split; apply flush_other; reflexivity.
Qed.
Lemma empty_read_waits s : reachable s -> w_in (wd s) = [] -> w_chk (wd s) = false -> 0 < s_max_retries (sk s) ->
  s_state (sk s) <> Closed -> s_state (sk s) <> ResetReceived -> fst (recv_from 0 s) = Fail Pend.
Proof.
  intros HR HI HC HM H1 H2. destruct (flush_zero s HR HC) as (s' & E & HW & HS & HX). unfold recv_from, bind at 1. rewrite E. unfold bind at 1, get_sk at 1. cbn [is_nil negb]. rewrite HS.
  replace (sstate_eqb (s_state (sk s)) ResetReceived) with false by (destruct (s_state (sk s)); congruence || reflexivity).
  unfold bind at 1, event_fuel. rewrite HW, HI. cbn [length loop]. unfold bind at 1, bind at 1, get_sk at 1. rewrite HS.
  replace (sstate_eqb (s_state (sk s)) Closed) with false by (destruct (s_state (sk s)); congruence || reflexivity).
  unfold bind at 1. rewrite recv_waits; [reflexivity|now rewrite HW|now rewrite HX].
Qed.
