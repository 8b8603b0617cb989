(** Every reader that has handed out what it got delivers the next number from whoever sends it (C22). *)
From Verif Require Export TransferProofs SpecCancel.
Require Import ZifyBool ZifyNat ZifyN.
Local Open Scope Z_scope.
Ltac Zify.zify_post_hook ::= Z.div_mod_to_equations.

Lemma recv_forged n p d src rest s : w_in (wd s) = RxDgram p src :: rest -> caught_up (s_ack_nr (sk s)) (sk s) -> all_sent s ->
  packet_try_from (firstn 1520 p) = Some (Ok p) -> get_type p = Some PData -> ~ own_id (sk s) p -> payload p = Some d -> d <> [] -> (length d <= n)%nat ->
  seq_nr p = (s_ack_nr (sk s) + 1) mod 65536 ->
  exists s' r, recv_from n s = (Ret (d, src), s') /\ get_type r = Some PReset /\
    w_sent (wd s') = w_sent (wd s) ++ [(src, r)] /\ w_in (wd s') = rest /\ w_send (wd s') = w_send (wd s) /\
    sk s' = ss_last_dropped (seq_nr p) (ss_ack_nr (seq_nr p) (sk s)).
Proof.
  intros EW (ES & EP & EB & _ & _ & HM & _ & HL & HR & _) HX HV HT HO HPl Hd Hn HQ. rewrite (recv_from_first n s EP EB ES). rewrite (recv_first n p src rest s EW HM).
  change 1520%nat with (BUF_SIZE + HEADER_SIZE)%nat in HV. rewrite (process_packet _ _ _ _ p PData _ HV HT). unfold bind at 1.
  rewrite (handle_foreign _ p src PData (rx_state s) HT) by (solve [discriminate | exact HO | change (s_state (sk s) <> SynSent); congruence]).
  assert (EK : acked_sk p (sk (rx_state s)) = ss_ack_nr (seq_nr p) (sk s)).
  { change (sk (rx_state s)) with (sk s). unfold acked_sk. rewrite u16_eq. replace (_ =? 1) with true by lia. reflexivity. }
  rewrite EK. set (t := mkSt (ss_ack_nr (seq_nr p) (sk s)) (wd (rx_state s))).
  unfold answer, bind at 1, bind at 1. unfold reply_to. rewrite set_wnd_wire. cbn [h_type h_cid h_ts h_tsd h_wnd h_seq h_ack].
  match goal with |- context [udp_send src ?q ?t] => set (r := q); set (t1 := t) end.
  assert (EX : tx_ok t1 = true) by (apply all_sent_ok; exact HX).
  rewrite (send_ok_eq src r t1 EX). cbn [try_ ret]. unfold bind at 1, get_sk at 1. change (sk (tx_state src r t1)) with (ss_ack_nr (seq_nr p) (sk s)).
  change (s_last_dropped (ss_ack_nr (seq_nr p) (sk s))) with (s_last_dropped (sk s)).
  replace (ptype_eqb PData PData && (0 <? u16 (seq_nr p - s_last_dropped (sk s)))) with true by (rewrite u16_eq; cbn [ptype_eqb andb]; lia).
  unfold insert_into_buffer, bind at 1, upd_sk at 1. change (sk (tx_state src r t1)) with (ss_ack_nr (seq_nr p) (sk s)).
  change (s_incoming_buffer (ss_ack_nr (seq_nr p) (sk s))) with (s_incoming_buffer (sk s)). rewrite EB. change (insert_packet p []) with [p]. unfold bind at 1.
  rewrite (flush_ready n _ p [] d) by (sproj; auto). rewrite firstn_all2, Nat.eqb_refl by lia. cbn [ret]. destruct d as [|b d]; [congruence|]. cbn [is_nil].
  eexists. exists r. split; [reflexivity|]. split.
  { unfold r. rewrite get_type_wire. reflexivity. }
  cbn [wd sk]. unfold tx_state. rewrite EX. cbn [wd]. sproj. change (wd t1) with (sw_tick (S (w_tick (wd t))) (wd t)). sproj. unfold t, rx_state, ticked. sproj. rewrite EW.
  repeat (split; [reflexivity|]). unfold advance_socket. sproj. destruct (sk s); cbn in *. subst. reflexivity.
Qed.
