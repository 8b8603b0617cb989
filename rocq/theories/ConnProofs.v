(** Opening and closing connections (C46-C49, C51, C52). *)
From Verif Require Export SendProofs.
Require Import ZifyBool ZifyNat ZifyN.
Local Open Scope Z_scope.
Ltac Zify.zify_post_hook ::= Z.div_mod_to_equations.

(** ** C46: passive open *)
(** [k] is a connection created by the SYN [p] from [src], with own sequence numbers starting at [sq]. *)
Definition opened_by (p : packet) (src : addr) (sq : Z) (k : socket) : Prop :=
  s_connected_to k = src /\ s_state k = Connected /\ s_sender_connection_id k = connection_id p /\
  s_receiver_connection_id k = (connection_id p + 1) mod 65536 /\ s_ack_nr k = seq_nr p /\ s_last_dropped k = seq_nr p /\ s_seq_nr k = sq.
(** [r] is the State packet announcing it. *)
Definition syn_reply (p : packet) (sq : Z) (r : packet) : Prop :=
  packet_try_from r = Some (Ok r) /\ get_type r = Some PState /\ connection_id r = connection_id p /\ ack_nr r = seq_nr p /\ seq_nr r = sq /\ extensions r = Some [] /\ payload r = Some [].
Definition next_random (s : st) : Z := w_rand (wd s) (w_rtick (wd s)) mod 65536.
Definition syn_safe (s : st) (p : packet) : Prop := w_chk (wd s) = true -> connection_id p < 65535.
Lemma syn_reply_wire p sq ts tsd w : 0 <= sq < 65536 -> syn_reply p sq (wire (mkHdr PState (connection_id p) ts tsd w sq (seq_nr p)) [] []).
Proof.
  intros HN. pose proof (seq_nr_range p) as HQ. pose proof (cid_range p) as HR. unfold syn_reply.
  rewrite get_type_wire, cid_wire, ack_wire, seq_wire, extensions_wire, payload_wire by constructor. cbn [h_type h_cid h_ack h_seq].
  rewrite !u16_small by lia. split; [apply wire_valid; constructor|]. auto 10.
Qed.
Lemma syn_tail p src sq t : opened_by p src sq (sk t) -> 0 <= sq < 65536 -> syn_reply p sq (reply_to p PState t) /\ (forall v, syn_reply p sq (set_wnd_size v (reply_to p PState t))).
Proof.
  intros (_ & _ & H1 & _ & H2 & _ & H3) HN. unfold reply_to. rewrite H1, H2, H3. split; [now apply syn_reply_wire|].
  intros v. rewrite set_wnd_wire. sproj. now apply syn_reply_wire.
Qed.
Lemma random_u16_eq s : random_u16 s = (Ret (next_random s), mkSt (sk s) (sw_rtick (S (w_rtick (wd s))) (wd s))).
Proof. unfold random_u16, next_random. now rewrite u16_eq. Qed.
Lemma ck_u16_wraps line v s : (w_chk (wd s) = true -> 0 <= v < 65536) -> ck_u16 line v s = (Ret (u16 v), s).
Proof. intros H. unfold ck_u16, arith. destruct (w_chk (wd s)); [specialize (H eq_refl)|reflexivity]. replace (true && _) with false by (change (2 ^ 16) with 65536; lia). reflexivity. Qed.
Lemma syn_run rec p src s : s_state (sk s) = New -> get_type p = Some PSyn -> syn_safe s p ->
  exists t, handle_packet rec p src s = (Ret (Some (reply_to p PState t)), ticked t) /\ opened_by p src (next_random s) (sk t) /\
    s_incoming_buffer (sk t) = s_incoming_buffer (sk s) /\ s_pending_data (sk t) = s_pending_data (sk s) /\ s_max_retries (sk t) = s_max_retries (sk s) /\ exists r, wd t = sw_rtick r (wd (ticked s)).
Proof.
  intros HS HT HC. rewrite (handle_own rec p src PSyn s HT) by auto. unfold dispatch, bind at 1, get_sk at 1.
  assert (EN : s_state (sk (noted p s)) = New) by (unfold noted; sproj; rewrite (acked_other s_state) by reflexivity; exact HS). rewrite EN.
  assert (EB : s_incoming_buffer (sk (noted p s)) = s_incoming_buffer (sk s)) by (unfold noted; sproj; now rewrite acked_other).
  assert (EP : s_pending_data (sk (noted p s)) = s_pending_data (sk s)) by (unfold noted; sproj; now rewrite acked_other).
  assert (EM : s_max_retries (sk (noted p s)) = s_max_retries (sk s)) by (unfold noted; sproj; now rewrite acked_other).
  assert (EW : wd (noted p s) = wd (ticked s)) by reflexivity.
  assert (ER : next_random (noted p s) = next_random s) by reflexivity.
  assert (EC : syn_safe (noted p s) p) by exact HC.
  generalize dependent (noted p s). intros t0 HN EB EP EM EW ER EC. rewrite <- ER, <- EB, <- EP, <- EM, <- EW. clear - EC.
  unfold bind at 1, upd_sk at 1. unfold bind at 1. rewrite random_u16_eq. unfold bind at 1, upd_sk at 1. unfold bind at 1.
  rewrite ck_u16_wraps by (intros HK; apply EC in HK; pose proof (cid_range p); lia).
  unfold bind at 1, upd_sk at 1. unfold bind at 1. rewrite prepare_reply_eq.
  eexists. split; [reflexivity|]. unfold opened_by. rewrite <- u16_eq. sproj. repeat split. eexists. reflexivity.
Qed.
Lemma syn_new rec p src s : s_state (sk s) = New -> get_type p = Some PSyn -> syn_safe s p ->
  exists r s', handle_packet rec p src s = (Ret (Some r), s') /\ opened_by p src (next_random s) (sk s') /\ syn_reply p (next_random s) r /\ (forall v, syn_reply p (next_random s) (set_wnd_size v r)) /\ w_sent (wd s') = w_sent (wd s) /\ w_in (wd s') = w_in (wd s) /\ w_chk (wd s') = w_chk (wd s) /\ tx_ok s' = tx_ok s /\ s_incoming_buffer (sk s') = s_incoming_buffer (sk s) /\ s_pending_data (sk s') = s_pending_data (sk s) /\ s_max_retries (sk s') = s_max_retries (sk s).
Proof.
  intros HS HT HC. destruct (syn_run rec p src s HS HT HC) as (t & E & HO & HB & HP & HM & r0 & HW).
  assert (HN : 0 <= next_random s < 65536) by (unfold next_random; apply Z.mod_pos_bound; lia).
  exists (reply_to p PState t), (ticked t). split; [exact E|].
  destruct (syn_tail p src _ t HO HN) as [H1 H2]. split; [exact HO|]. split; [exact H1|]. split; [exact H2|].
  unfold tx_ok. unfold ticked. sproj. rewrite HW. repeat split; assumption.
Qed.
Lemma accept_opens data src p la s : packet_try_from (firstn 1500 data) = Some (Ok p) -> get_type p = Some PSyn -> syn_safe s p -> tx_ok s = true ->
  exists r s', accept (RxDgram data src) (Ok la) (Ok tt) s = (Ret src, s') /\
    opened_by p src (w_rand (wd s) (S (w_rtick (wd s))) mod 65536) (sk s') /\ syn_reply p (s_seq_nr (sk s')) r /\
    w_sent (wd s') = w_sent (wd s) ++ [(src, r)] /\ w_in (wd s') = w_in (wd s).
Proof.
  intros HP HT HC HX. unfold accept, bind at 1. change BUF_SIZE with 1500%nat. rewrite HP. cbn [unwrap]. unfold ret at 1. unfold bind at 1, m_get_type. rewrite HT. cbn [unwrap]. unfold ret at 1. cbn [ptype_eqb negb try_].
  unfold bind at 1, ret at 1. unfold bind at 1, ret at 1. unfold bind at 1, from_raw_parts, bind at 1, random_u16, upd_sk at 1.
  match goal with |- context [handle_packet recv p src ?t] => destruct (syn_new recv p src t) as (r & s1 & E & HO & HR & _ & L & I & C & X & _) end; auto.
  rewrite E. unfold bind at 1. rewrite send_ok_eq by (rewrite X; exact HX). unfold bind, try_, ret.
  exists r. eexists. split; [reflexivity|]. unfold tx_state. rewrite X. match goal with |- context [tx_ok ?t] => change (tx_ok t) with (tx_ok s) end. rewrite HX. sproj.
  split; [exact HO|]. destruct HO as (_ & _ & _ & _ & _ & _ & ->). split; [exact HR|]. rewrite L, I. split; reflexivity.
Qed.
Lemma recv_opens n d src p rest s : w_in (wd s) = RxDgram d src :: rest -> 0 < s_max_retries (sk s) ->
  packet_try_from (firstn 1520 d) = Some (Ok p) -> get_type p = Some PSyn -> s_state (sk s) = New -> syn_safe s p -> tx_ok s = true ->
  s_incoming_buffer (sk s) = [] -> s_pending_data (sk s) = [] ->
  exists r s', recv n s = (Ret ([], src), s') /\ opened_by p src (next_random s) (sk s') /\ syn_reply p (next_random s) r /\
    w_sent (wd s') = w_sent (wd s) ++ [(src, r)] /\ w_in (wd s') = rest /\ s_max_retries (sk s') = s_max_retries (sk s).
Proof.
  intros HI HM HP HT HS HC HX HB HD. rewrite (recv_first n d src rest s HI HM). rewrite (process_packet _ _ _ _ p PSyn _ HP HT). unfold bind at 1.
  destruct (syn_new (recv_fuel (length (w_in (wd s)))) p src (rx_state s)) as (r & s1 & E & HO & _ & HR & L & I & C & X & B & P & M); auto.
  rewrite E. unfold answer, bind at 1, bind at 1. rewrite send_ok_eq by (rewrite X; exact HX). cbn [try_]. unfold ret at 1. unfold bind at 1, get_sk at 1. cbn [ptype_eqb andb]. unfold bind at 1, ret at 1.
  unfold bind. unfold flush_incoming_buffer, bind, get_sk. cbn [tx_state sk].
  change (s_pending_data (sk (rx_state s))) with (s_pending_data (sk s)) in P. change (s_incoming_buffer (sk (rx_state s))) with (s_incoming_buffer (sk s)) in B.
  rewrite P, HD. cbn [is_nil]. rewrite B, HB. exists (set_wnd_size WINDOW_SIZE r). eexists. split; [reflexivity|]. sproj. split; [exact HO|]. split; [apply HR|].
  unfold tx_state. rewrite X. match goal with |- context [tx_ok ?t] => change (tx_ok t) with (tx_ok s) end. rewrite HX. sproj. rewrite L, I. unfold rx_state. sproj. rewrite HI. split; [reflexivity|]. split; [reflexivity|exact M].
Qed.

(** ** C47 *)
Lemma accept_rejects ev la bound s : (forall data src p, ev = RxDgram data src -> packet_try_from (firstn 1500 data) = Some (Ok p) -> get_type p <> Some PSyn) ->
  match ev with RxCancel => accept ev la bound s = (Fail Pend, s) | _ => exists k, accept ev la bound s = (Fail (Throw k), s) end.
Proof.
  intros H. destruct ev as [data src|k|]; [|now exists k|reflexivity]. unfold accept, bind at 1. change BUF_SIZE with 1500%nat.
  destruct (parse_total (firstn 1500 data)) as [[p|e] E]; rewrite E; cbn [unwrap]; unfold ret at 1; [|eexists; reflexivity].
  specialize (H data src p eq_refl E). destruct (parse_inv _ _ E) as [-> HU]. unfold bind at 1, m_get_type. destruct (get_type (firstn 1500 data)) as [ty|] eqn:ET.
  - cbn [unwrap]. unfold ret at 1. destruct ty; try congruence; cbn [ptype_eqb negb]; eexists; reflexivity.
  - exfalso. apply valid_type in E as [ty E]. congruence.
Qed.

(** ** C48, C49: active open *)
(** [l] are SYN packets to [a], identical except for their timestamps. *)
Definition syns_to (a : addr) (cid sq : Z) (l : list (addr * packet)) : Prop :=
  Forall (fun x => fst x = a /\ exists t, 0 <= t < 2 ^ 32 /\ snd x = wire (mkHdr PSyn cid t 0 0 sq 0) [] []) l.
Definition first_reply (evs : list rx) (b : list byte) : Prop :=
  exists ks d src rest, evs = map RxErr ks ++ RxDgram d src :: rest /\ Forall (fun k => is_timeout k = true) ks /\ (length ks < 5)%nat /\ b = firstn 1500 d.
Lemma syn_loop_all cid sq tries : forall ts s o s', syn_loop tries (wire (mkHdr PSyn cid ts 0 0 sq 0) [] []) s = (o, s') ->
  exists syns, w_sent (wd s') = w_sent (wd s) ++ syns /\ syns_to (s_connected_to (sk s)) cid sq syns /\ (length syns <= tries)%nat /\
    ((0 < tries)%nat -> tx_ok s = true -> (0 < length syns)%nat) /\
    match o with
    | Ret b => ((0 < tries)%nat \/ s_state (sk s) = SynSent -> s_state (sk s') = SynSent) /\ (b = [] \/ exists ks d src rest, w_in (wd s) = map RxErr ks ++ RxDgram d src :: rest /\ Forall (fun k => is_timeout k = true) ks /\ (length ks < tries)%nat /\ b = firstn 1500 d)
    | Fail (Panic _) | Fail NoFuel => False
    | Fail _ => True end.
Proof.
  induction tries as [|n IH]; intros ts s o s' H.
  - cbn [syn_loop] in H. injection H as <- <-. exists []. rewrite app_nil_r. repeat split; try constructor; try lia; [now intros [?|?]; [lia|]|reflexivity].
  - cbn [syn_loop] in H. unfold bind at 1, now_microseconds in H. cbv zeta in H. unfold bind at 1, get_sk at 1 in H. unfold bind at 1 in H. rewrite set_ts_wire in H.
    fold (ticked s) in H. cbn [h_type h_cid h_tsd h_wnd h_seq h_ack sk ticked] in H.
    destruct (udp_send (s_connected_to (sk s)) _ (ticked s)) as [o1 s1] eqn:E1 in H.
    assert (HT : tx_ok s = tx_ok (ticked s)) by reflexivity.
    destruct (tx_ok s) eqn:EX.
    + rewrite send_ok_eq in E1 by congruence. injection E1 as <- <-. cbn [try_] in H. unfold bind at 1, ret at 1 in H. unfold bind at 1, upd_sk at 1 in H. unfold bind at 1 in H.
      set (syn := wire _ _ _) in H. set (t1 := mkSt _ _) in H.
      assert (L1 : w_sent (wd t1) = w_sent (wd s) ++ [(s_connected_to (sk s), syn)]) by (unfold t1, tx_state; rewrite <- HT; reflexivity).
      assert (I1 : w_in (wd t1) = w_in (wd s)) by (unfold t1, tx_state; rewrite <- HT; reflexivity).
      assert (HS : syns_to (s_connected_to (sk s)) cid sq [(s_connected_to (sk s), syn)]).
      { constructor; [|constructor]. split; [reflexivity|]. eexists. split; [|reflexivity]. apply micros_range. }
      assert (ST : s_state (sk t1) = SynSent) by reflexivity. assert (CT : s_connected_to (sk t1) = s_connected_to (sk s)) by reflexivity. clearbody t1.
      unfold udp_recv in H. destruct (w_in (wd t1)) as [|[d src|k|] rest] eqn:EI.
      * injection H as <- <-. exists [(s_connected_to (sk s), syn)]. cbn [length]. repeat split; auto; lia.
      * unfold bind, upd_sk, ret in H. injection H as <- <-. exists [(s_connected_to (sk s), syn)]. cbn [length sk wd w_sent sw_in]. repeat split; auto; try lia.
        right. exists [], d, src, rest. rewrite <- I1. cbn. split; [reflexivity|]. split; [constructor|]. split; [lia|reflexivity].
      * destruct (is_timeout k) eqn:EK.
        -- apply IH in H as (syns & HL & HF & HN & _ & HO). cbn [wd sw_in w_sent sk] in *. rewrite L1, <- app_assoc in HL. exists ((s_connected_to (sk s), syn) :: syns).
           split; [exact HL|]. rewrite CT in HF. split; [apply (Forall_app _ [_]); split; assumption|]. cbn [length]. split; [lia|]. split; [lia|].
           destruct o as [b|[]]; auto. destruct HO as [HA HB]. split.
           ++ intros _. apply HA. now right.
           ++ destruct HB as [HB|(ks & d & src & rest' & E & HK & HM & HB)]; [now left|right]. exists (k :: ks), d, src, rest'. cbn [map app length].
              rewrite <- I1. cbn [wd sw_in w_in] in E. rewrite E. repeat split; auto. lia.
        -- injection H as <- <-. exists [(s_connected_to (sk s), syn)]. cbn [length wd sw_in w_sent]. repeat split; auto; lia.
      * injection H as <- <-. exists [(s_connected_to (sk s), syn)]. cbn [length wd sw_in w_sent]. repeat split; auto; lia.
    + assert (HL : w_sent (wd s1) = w_sent (wd s) /\ match o1 with Ret (Err _) | Fail Pend => True | _ => False end).
      { clear - E1 EX. unfold udp_send, tx_ok in *. cbn [ticked wd w_send w_stick] in *. destruct (w_send _ _); injection E1 as <- <-; try discriminate; auto. }
      destruct HL as [HL HO1]. exists []. rewrite app_nil_r. destruct o1 as [[[]|k]|[]]; try easy; injection H as <- <-; cbn [length]; repeat split; auto; try lia; try constructor; easy.
Qed.

Lemma synsent_handle rec p src s : valid p -> s_state (sk s) = SynSent ->
  exists o s', handle_packet rec p src s = (o, s') /\ w_sent (wd s') = w_sent (wd s) /\
    match o with
    | Ret _ => get_type p = Some PState /\ s_state (sk s') = Connected /\ s_connected_to (sk s') = src /\ s_ack_nr (sk s') = seq_nr p \/
               get_type p = Some PSyn /\ s_state (sk s') = SynSent
    | Fail (Throw k) => k = KConnectionRefused \/ k = KOther | Fail (Panic _) => ~ (0 <= s_seq_nr (sk s) < 65535) | Fail _ => False end.
Proof.
  intros HV HS. apply valid_type in HV as [ty HT]. rewrite (handle_own rec p src ty s HT) by auto.
  assert (EN : s_state (sk (noted p s)) = SynSent) by (unfold noted; sproj; rewrite (acked_other s_state) by reflexivity; exact HS).
  unfold dispatch, bind at 1, get_sk at 1. rewrite EN. destruct ty; try (eexists; eexists; split; [reflexivity|split; [reflexivity|]]; cbn; auto).
  - unfold bind at 1, upd_sk at 1. unfold bind at 1, ck_u16, arith. match goal with |- context [if ?b then _ else _] => destruct b eqn:E end.
    + eexists; eexists; split; [reflexivity|]. split; [reflexivity|]. unfold noted in E. sproj_in E. rewrite (acked_other s_seq_nr) in E by reflexivity. change (2 ^ 16) with 65536 in E. lia.
    + eexists; eexists; split; [reflexivity|]. split; [reflexivity|]. left. sproj. auto.
Qed.
(** Everything a connection attempt does, for every outcome. *)
Lemma connect_all a l s0 o s : connect (Ok (a :: l)) (Ok tt) s0 = (o, s) ->
  exists cid syns, w_sent (wd s) = w_sent (wd s0) ++ syns /\ syns_to a cid 1 syns /\ (length syns <= 5)%nat /\
    (tx_ok s0 = true -> (0 < length syns)%nat) /\
    match o with
    | Ret _ => exists b, first_reply (w_in (wd s0)) b /\ packet_try_from b = Some (Ok b) /\
        (get_type b = Some PState /\ s_state (sk s) = Connected /\ s_ack_nr (sk s) = seq_nr b \/ get_type b = Some PSyn /\ s_state (sk s) = SynSent)
    | Fail (Panic _) | Fail NoFuel => False
    | _ => True end.
Proof.
  intros H. unfold connect, take_address in H. unfold bind at 1, ret at 1 in H. unfold bind at 1 in H.
  unfold bind_socket, take_address, try_, from_raw_parts in H. unfold bind at 1, ret at 1 in H. unfold bind at 1, ret at 1 in H. unfold bind at 1 in H. rewrite random_u16_eq in H.
  unfold upd_sk at 1 in H. unfold bind at 1, upd_sk at 1 in H. unfold bind at 1, get_sk at 1 in H. unfold bind at 1 in H. rewrite syn_packet_wire in H.
  cbn [sk wd] in H. set (t := mkSt (ss_connected_to a _) _) in H.
  remember (s_receiver_connection_id (sk t)) as cid eqn:ER; symmetry in ER. assert (ES : s_seq_nr (sk t) = 1) by reflexivity.
  change (s_receiver_connection_id (ss_connected_to a _)) with (s_receiver_connection_id (sk t)) in H. change (s_seq_nr (ss_connected_to a _)) with (s_seq_nr (sk t)) in H. rewrite ER, ES in H.
  assert (EL : w_sent (wd t) = w_sent (wd s0)) by reflexivity. assert (EI : w_in (wd t) = w_in (wd s0)) by reflexivity.
  assert (EX : tx_ok t = tx_ok s0) by reflexivity. assert (EC : s_connected_to (sk t) = a) by reflexivity.
  clearbody t. destruct (syn_loop MAX_SYN_RETRIES _ t) as [o1 s1] eqn:E1.
  pose proof (syn_loop_sk MAX_SYN_RETRIES (wire (mkHdr PSyn cid 0 0 0 1 0) [] []) t ltac:(rewrite wire_length; cbn; lia) ltac:(unfold MAX_SYN_RETRIES; lia)) as HSK.
  unfold wp in HSK. rewrite E1 in HSK. cbn [fst snd] in HSK.
  apply syn_loop_all in E1 as (syns & HL & HF & HN & HP & HO). rewrite EL in HL. rewrite EX in HP. rewrite EC in HF. rewrite EI in HO. exists cid, syns.
  change MAX_SYN_RETRIES with 5%nat in *.
  destruct o1 as [b|e]; [|injection H as <- <-; split; [exact HL|]; split; [exact HF|]; split; [exact HN|]; split; [intros; apply HP; [lia|assumption]|destruct e; auto]].
  destruct HSK as [[src HSK] _]. unfold bind at 1, get_sk at 1 in H. unfold bind at 1 in H.
  destruct (parse_total b) as [[p|e] EP]; rewrite EP in H; cbn [unwrap] in H; unfold ret at 1 in H.
  2:{ injection H as <- <-. split; [exact HL|]; split; [exact HF|]; split; [exact HN|]; split; [intros; apply HP; [lia|assumption]|exact I]. }
  destruct (parse_inv _ _ EP) as [-> _]. destruct HO as [HS HB].
  destruct (synsent_handle recv b (s_connected_to (sk s1)) s1 EP (HS (or_introl (Nat.lt_0_succ 4)))) as (o2 & s2 & E2 & L2 & HH).
  unfold bind at 1 in H. rewrite E2 in H. destruct o2 as [r|e]; injection H as <- <-; rewrite L2.
  - split; [exact HL|]; split; [exact HF|]; split; [exact HN|]; split; [intros; apply HP; [lia|assumption]|]. exists b. split; [|split; [exact EP|tauto]].
    destruct HB as [->|(ks & d & src' & rest & HB)]; [discriminate|]. exists ks, d, src', rest. exact HB.
  - split; [exact HL|]; split; [exact HF|]; split; [exact HN|]; split; [intros; apply HP; [lia|assumption]|]. destruct e; auto. rewrite HSK in HH. sproj_in HH. lia.
Qed.
(** Five timeouts. *)
Lemma syn_loop_timeouts cid sq ks : forall ts s rest, w_in (wd s) = map RxErr ks ++ rest -> Forall (fun k => is_timeout k = true) ks -> all_sent s ->
  exists s', syn_loop (length ks) (wire (mkHdr PSyn cid ts 0 0 sq 0) [] []) s = (Ret [], s') /\ w_in (wd s') = rest /\
   exists syns, w_sent (wd s') = w_sent (wd s) ++ syns /\ length syns = length ks.
Proof.
  induction ks as [|k ks IH]; intros ts s rest HI HF HA.
  - exists s. split; [reflexivity|]. split; [exact HI|]. exists []. rewrite app_nil_r. auto.
  - inversion HF as [|? ? HK HF']; subst. cbn [length syn_loop]. unfold bind at 1, now_microseconds. cbv zeta. unfold bind at 1, get_sk at 1. unfold bind at 1. rewrite set_ts_wire.
    fold (ticked s). rewrite send_ok_eq by (apply all_sent_ok; exact HA). cbn [try_]. unfold bind at 1, ret at 1. unfold bind at 1, upd_sk at 1. unfold bind at 1, udp_recv.
    set (t1 := mkSt _ _). assert (HA' : all_sent (ticked s)) by exact HA.
    assert (I1 : w_in (wd t1) = RxErr k :: map RxErr ks ++ rest) by (unfold t1, tx_state; rewrite (all_sent_ok _ HA'); exact HI).
    assert (A1 : all_sent t1) by (intros i; unfold t1, tx_state; rewrite (all_sent_ok _ HA'); apply HA).
    assert (L1 : exists x, w_sent (wd t1) = w_sent (wd s) ++ [x]) by (eexists; unfold t1, tx_state; rewrite (all_sent_ok _ HA'); reflexivity).
    clearbody t1. rewrite I1, HK. destruct L1 as [x L1].
    destruct (IH (clock_now s) (mkSt (sk t1) (sw_in (map RxErr ks ++ rest) (wd t1))) rest eq_refl HF' A1) as (s' & E & I2 & syns & L2 & N2). exists s'. split; [exact E|]. split; [exact I2|].
    exists (x :: syns). rewrite L2. cbn [wd sw_in w_sent length]. rewrite L1, <- app_assoc. auto.
Qed.
Lemma connect_unanswered a l ks rest s0 : w_in (wd s0) = map RxErr ks ++ rest -> Forall (fun k => is_timeout k = true) ks -> length ks = 5%nat -> all_sent s0 ->
  exists s', connect (Ok (a :: l)) (Ok tt) s0 = (Fail (Throw KOther), s') /\ exists syns, w_sent (wd s') = w_sent (wd s0) ++ syns /\ length syns = 5%nat.
Proof.
  intros HI HF HN HA. unfold connect, take_address. unfold bind at 1, ret at 1. unfold bind at 1.
  unfold bind_socket, take_address, try_, from_raw_parts. unfold bind at 1, ret at 1. unfold bind at 1, ret at 1. unfold bind at 1. rewrite random_u16_eq.
  unfold upd_sk at 1. unfold bind at 1, upd_sk at 1. unfold bind at 1, get_sk at 1. unfold bind at 1. rewrite syn_packet_wire.
  cbn [sk wd]. set (t := mkSt (ss_connected_to a _) _).
  assert (EL : w_sent (wd t) = w_sent (wd s0)) by reflexivity. assert (EI : w_in (wd t) = map RxErr ks ++ rest) by exact HI. assert (EA : all_sent t) by exact HA.
  match goal with |- context [wire (mkHdr PSyn ?c 0 0 0 ?q 0) [] []] => destruct (syn_loop_timeouts c q ks 0 t rest EI HF EA) as (s' & E & _ & syns & L & N) end.
  rewrite HN in E. change 5%nat with MAX_SYN_RETRIES in E. rewrite E. eexists. split; [reflexivity|]. cbn [snd]. exists syns. rewrite L, EL, N. auto.
Qed.

(** ** C51: close *)
Definition fin_packet (cid ts sq ak : Z) : packet := wire (mkHdr PFin cid ts 0 0 sq ak) [] [].
Lemma close_ok s s' : reachable s -> s_state (sk s) <> New -> s_state (sk s) <> SynSent -> s_state (sk s) <> Closed -> close s = (Ret tt, s') ->
  exists t ts more, flush s = (Ret tt, t) /\ s_send_window (sk t) = [] /\
    w_sent (wd s') = w_sent (wd t) ++ (s_connected_to (sk t), fin_packet (s_sender_connection_id (sk t)) ts (s_seq_nr (sk t)) (s_ack_nr (sk t))) :: more /\
    s_state (sk s') = Closed /\ close s' = (Ret tt, s').
Proof.
  intros HR H1 H2 H3 H. unfold close, bind at 1, get_sk at 1 in H.
  assert (H' : (flush ;;; send_fin ;;; upd_sk (ss_state FinSent) ;;; fuel <- event_fuel ;;
    loop fuel (fun _ : unit => s <- get_sk ;; if sstate_eqb (s_state s) Closed then ret (inr tt) else recv BUF_SIZE ;;; ret (inl tt)) tt) s = (Ret tt, s')).
  { destruct (s_state (sk s)); try congruence; exact H. }
  clear H. unfold bind at 1 in H'. destruct (flush s) as [[[]|e] t] eqn:EF; [|discriminate].
  pose proof (Gin_pre s HR) as HP. destruct (flush_acked s t HR EF) as (EW & HS & _).
  assert (HPt : opre (Gin (w_in (wd s))) W0 t). { eapply osteps_opre; [exact W0_ts|apply steps_osteps; exact HS|exact HP]. }
  exists t, (clock_now t). unfold bind at 1, send_fin, bind at 1, get_sk at 1 in H'. unfold bind at 1, now_microseconds in H'. unfold bind at 1 in H'. fold (ticked t) in H'.
  rewrite packet_new_wire, set_cid_wire, set_seq_wire, set_ack_wire, set_ts_wire, set_type_wire in H'. cbn [h_type h_cid h_ts h_tsd h_wnd h_seq h_ack] in H'.
  match type of H' with context [udp_send ?d ?p _] => set (fin := p) in H' end.
  destruct (tx_ok (ticked t)) eqn:EX.
  2:{ exfalso. unfold udp_send, tx_ok in *. destruct (w_send _ _); discriminate. }
  rewrite send_ok_eq in H' by exact EX. cbn [try_] in H'. unfold ret at 1 in H'. unfold bind at 1, upd_sk at 1 in H'.
  set (s3 := mkSt _ _) in H'.
  assert (L3 : w_sent (wd s3) = w_sent (wd t) ++ [(s_connected_to (sk t), fin)]) by (unfold s3, tx_state; rewrite EX; reflexivity).
  assert (HP3 : opre (Gin (w_in (wd s))) W0 s3).
  { unfold opre, pre in *. destruct HPt as [[HA HB] HC]. split; [split|]; [|exact HB|exact HC]. intros d src q Hin. apply (HA d src q). unfold s3, tx_state in Hin. rewrite EX in Hin. exact Hin. }
  clearbody s3. unfold bind at 1, event_fuel in H'.
  assert (HL : wp (loop (S (length (w_in (wd s3)))) (fun _ : unit => s <- get_sk ;; if sstate_eqb (s_state s) Closed then ret (inr tt) else recv BUF_SIZE ;;; ret (inl tt)) tt)
    (oop (Gin (w_in (wd s))) W0 s3 (fun _ s' => s_state (sk s') = Closed)) s3).
  { apply (oop_loop _ _ _ _ _ (fun _ _ => True)); [apply osteps_refl|exact I|]. intros _ t' HT _. do 2 wstep.
    destruct (sstate_eqb _ _) eqn:ES; [wstep; split; [exact HT|now apply state_eqb_true]|].
    eapply oop_bind; [apply oop_call; [exact W0_ts|apply recv_steps; [apply Gin_valid|exact W0_ts|exact W0_tsd]|exact HP3|exact HT]|]. intros x s4 HS4 _. wstep. split; auto. }
  unfold wp in HL. change (loop (S (length (w_in (wd s3)))) (fun _ : unit => s <- get_sk ;; if sstate_eqb (s_state s) Closed then ret (inr tt) else recv BUF_SIZE ;;; ret (inl tt)) tt s3 = (Ret tt, s')) in H'.
  rewrite H' in HL. cbn [fst snd oop] in HL. destruct HL as [HL HC]. apply osteps_log in HL as [xs HL]. exists xs. rewrite HL, L3, <- app_assoc.
  split; [reflexivity|]. split; [exact EW|]. split; [reflexivity|]. split; [exact HC|]. unfold close, bind, get_sk. cbn in HC. rewrite HC. reflexivity.
Qed.
