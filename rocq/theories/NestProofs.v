(** Nested receives: a retransmission asked for by the peer while the window is full receives again, inside the receive (C117). *)
From Verif Require Export LostProofs.
Require Import ZifyBool ZifyNat ZifyN.
Local Open Scope Z_scope.

Section Nest.
  Variables (W : list packet) (sid rid : Z) (chk : bool).
  (** A State packet of the connection with a selective acknowledgement of three packets or more, asking for a packet in flight. *)
  Definition report (e : rx) : Prop :=
    match e with
    | RxDgram d _ => exists p x exts, packet_try_from (firstn 1520 d) = Some (Ok p) /\ get_type p = Some PState /\ (connection_id p = sid \/ connection_id p = rid) /\
        extensions p = Some (x :: exts) /\ is_sack (ext_ty x) = true /\ 3 <= count_ones (ext_data x) /\
        ~ In (ack_nr p) (map seq_nr W) /\ In (u16 (ack_nr p + 1)) (map seq_nr W) /\ (chk = true -> ack_nr p < 65535)
    | _ => False
    end.
  (** A full window, with [k] datagrams to come. *)
  Definition stuffed (k : nat) (s : st) : Prop :=
    s_state (sk s) = Connected /\ s_sender_connection_id (sk s) = sid /\ s_receiver_connection_id (sk s) = rid /\ s_send_window (sk s) = W /\
    2800 <= s_curr_window (sk s) /\ s_cwnd (sk s) <= s_curr_window (sk s) /\ 0 < s_max_retries (sk s) /\ w_chk (wd s) = chk /\
    0 <= s_duplicate_ack_count (sk s) /\ s_duplicate_ack_count (sk s) + Z.of_nat k < 4294967296 /\
    (forall i, micros_of_clock (w_clock (wd s) (S i)) - micros_of_clock (w_clock (wd s) i) < 500000).
  Lemma stuffed_note k a s : stuffed (S k) s -> exists t, note_ack a s = (Ret tt, t) /\ stuffed k t /\ w_in (wd t) = w_in (wd s).
  Proof.
    intros (H1 & H2 & H3 & H4 & H5 & H6 & H7 & H8 & H9 & H10 & H11). unfold note_ack, bind at 1, get_sk. destruct (a =? s_last_acked (sk s)).
    - assert (E : ck_u32 1036 (s_duplicate_ack_count (sk s) + 1) s = (Ret (s_duplicate_ack_count (sk s) + 1), s)).
      { unfold ck_u32, arith. replace ((0 <=? _) && _) with true by lia. rewrite andb_false_r. now rewrite u32_small by lia. }
      unfold bind. rewrite E. eexists. split; [reflexivity|]. split; [|reflexivity]. unfold stuffed. cbn [sk wd]. sproj. repeat (split; [first [assumption|lia]|]). assumption.
    - eexists. split; [reflexivity|]. split; [|reflexivity]. unfold stuffed. cbn [sk wd]. sproj. repeat (split; [first [assumption|lia]|]). assumption.
  Qed.
  Lemma recv_fuel_first f n d src rest s : w_in (wd s) = RxDgram d src :: rest -> 0 < s_max_retries (sk s) ->
    recv_fuel (S f) n s = process_datagram (recv_fuel f) n (firstn (BUF_SIZE + HEADER_SIZE) d) src (rx_state s).
  Proof.
    intros HI HM. change (recv_fuel (S f) n) with (recv_body (recv_fuel f) n).
    unfold recv_body, bind at 1, wait_datagram, bind at 1, event_fuel. cbn [loop]. unfold bind at 1, bind at 1, get_sk at 1.
    replace (s_max_retries (sk s) <=? 0) with false by lia. unfold bind at 1, udp_recv. rewrite HI. unfold ret. cbn [fst snd tl].
    unfold rx_state. rewrite HI. reflexivity.
  Qed.

  Lemma stuffed_resend f lost x s2 k s : stuffed k s -> In lost (map seq_nr W) -> (x = Pend \/ x = NoFuel) ->
    recv_fuel f BUF_SIZE (ticked (ticked s)) = (Fail x, s2) -> resend_lost_packet (recv_fuel f) lost s = (Fail x, s2).
  Proof.
    intros (H1 & H2 & H3 & H4 & H5 & H6 & H7 & H8 & H9 & H10 & H11) HI HX HR. unfold resend_lost_packet, bind at 1, get_sk. rewrite H4.
    pose proof (position_spec (fun p => seq_nr p =? lost) W) as HP. destruct (position _ W) as [i|].
    - destruct HP as (a & q & b & E & L & _). rewrite E, nth_error_app2, L, Nat.sub_diag by lia. cbn [nth_error unwrap]. unfold bind, ret at 1. unfold ignore_result. rewrite send_packet_split. unfold bind.
      rewrite (gate_closed (recv_fuel f) (limit (sk s)) (clock_now s) (ticked s) x s2); [destruct HX; subst x; reflexivity| | |exact HR].
      + change (sk (ticked s)) with (sk s). unfold limit. lia.
      + apply (H11 (w_tick (wd s))).
    - apply in_map_iff in HI. destruct HI as (q & E & I). rewrite Forall_forall in HP. specialize (HP q I). lia.
  Qed.
  Lemma stuffed_ticked k s : stuffed k s -> stuffed k (ticked s). Proof. exact (fun H => H). Qed.
  Lemma nest_step f n k e rest s : stuffed (S k) s -> w_in (wd s) = e :: rest -> report e -> exists s1, stuffed k s1 /\ w_in (wd s1) = rest /\
    forall x s2, (x = Pend \/ x = NoFuel) -> recv_fuel f BUF_SIZE s1 = (Fail x, s2) -> recv_fuel (S f) n s = (Fail x, s2).
  Proof.
    intros HS HI HE. destruct e as [d src| |]; [|destruct HE|destruct HE]. destruct HE as (p & x & exts & P1 & P2 & P3 & P4 & P5 & P6 & P7 & P8 & P9).
    assert (HN : stuffed (S k) (noted p (rx_state s)) /\ w_in (wd (noted p (rx_state s))) = rest).
    { destruct HS as (H1 & H2 & H3 & H4 & H5 & H6 & H7 & H8 & H9 & H10 & H11). split; [|unfold noted, rx_state; cbn; now rewrite HI].
      unfold stuffed, noted. cbn [sk]. sproj. rewrite !(acked_other _ p) by reflexivity. repeat (split; [assumption|]). assumption. }
    destruct HN as [HN HW]. destruct (stuffed_note k (ack_nr p) _ HN) as (t & E & HT & HTW).
    exists (ticked (ticked t)). split; [exact HT|]. split; [rewrite <- HW, <- HTW; reflexivity|]. intros y s2 HY HR.
    rewrite (recv_fuel_first f n d src rest s HI) by apply HS. change (BUF_SIZE + HEADER_SIZE)%nat with 1520%nat.
    rewrite (process_packet _ n _ src p PState _ P1 P2). unfold bind at 1.
    assert (HO : own_id (sk (rx_state s)) p).
    { destruct HS as (_ & H2 & H3 & _). unfold own_id. change (sk (rx_state s)) with (sk s). rewrite H2, H3. tauto. }
    rewrite (handle_own (recv_fuel f) p src PState _ P2) by (left; exact HO). unfold dispatch, bind at 1, get_sk.
    replace (s_state (sk (noted p (rx_state s)))) with Connected by (symmetry; apply HN).
    unfold bind at 1. unfold handle_state_packet at 1. unfold bind at 1. rewrite E. unfold bind at 1, get_sk.
    assert (TW : s_send_window (sk t) = W) by apply HT. rewrite TW. rewrite (proj1 (SendProofs.position_none _ _ P7)).
    unfold bind at 1, ret at 1. unfold bind at 1. rewrite P4. cbn [unwrap]. unfold bind at 1, ret at 1. unfold bind at 1. cbn [process_extensions]. rewrite P5.
    replace (3 <=? count_ones (ext_data x)) with true by lia. unfold bind at 1, bind at 1.
    assert (EC : ck_u16 1084 (ack_nr p + 1) t = (Ret (u16 (ack_nr p + 1)), t)).
    { unfold ck_u16, arith. replace (w_chk (wd t)) with chk by (symmetry; apply HT). pose proof (ack_nr_range p) as HA. destruct chk; [|reflexivity].
      specialize (P9 eq_refl). replace ((0 <=? _) && _) with true by lia. reflexivity. }
    rewrite EC. unfold bind at 1. rewrite (stuffed_resend f _ y s2 k t HT P8 HY HR). reflexivity.
  Qed.
End Nest.
