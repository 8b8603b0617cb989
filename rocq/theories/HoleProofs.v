(** After a write that failed at the UDP socket or was given up there (C107): its number is used up and never sent. *)
From Verif Require Export TransferProofs EndProofs StreamRxProofs.
Require Import ZifyBool ZifyNat ZifyN.
Local Open Scope Z_scope.
Ltac Zify.zify_post_hook ::= Z.div_mod_to_equations.

Definition send_result (r : sendres) : outcome Z := match r with SendErr k => Fail (Throw k) | _ => Fail Pend end.
Lemma send_failed d s : (0 < length d <= 1380)%nat -> s_state (sk s) <> Closed -> s_unsent_queue (sk s) = [] -> s_curr_window (sk s) = 0 ->
  0 <= s_seq_nr (sk s) < 65536 -> u16 (s_seq_nr (sk s) - s_last_acked (sk s)) <= u16 (s_last_acked (sk s) - s_seq_nr (sk s)) -> w_send (wd s) (w_stick (wd s)) <> SendOk ->
  exists s', send_to d s = (send_result (w_send (wd s) (w_stick (wd s))), s') /\ sk s' = ss_seq_nr (u16 (s_seq_nr (sk s) + 1)) (ss_unsent_queue [] (sk s)) /\
    w_sent (wd s') = w_sent (wd s) /\ w_in (wd s') = w_in (wd s) /\ w_send (wd s') = w_send (wd s) /\ w_stick (wd s') = S (w_stick (wd s)).
Proof.
  intros Hd HC HU H0 HQ HA HX. unfold send_to, bind at 1, get_sk at 1. destruct (sstate_eqb (s_state (sk s)) Closed) eqn:E; [now apply state_eqb_true in E|].
  unfold bind at 1, upd_sk at 1. change CHUNK with 1380%nat. rewrite one_chunk by exact Hd. cbn [fold_left]. unfold queue_chunk. rewrite HU, chunk_packet_wire. cbn [app].
  set (q := wire _ _ _). set (t := mkSt _ _). unfold send, bind at 1, bind at 1, get_sk at 1. change (s_unsent_queue (sk t)) with [q]. cbn [length].
  change (loop 2) with (fun (body : unit -> M (unit + unit)) x => r <- body x ;; match r with inl y => loop 1 body y | inr a => ret a end). cbv beta.
  unfold bind at 1, bind at 1, get_sk at 1. change (s_unsent_queue (sk t)) with [q]. unfold bind at 1, upd_sk at 1. set (t0 := mkSt _ _). unfold bind at 1. rewrite send_packet_split.
  unfold bind at 1. rewrite gate_open by (change (s_curr_window (sk (ticked t0))) with (s_curr_window (sk s)); rewrite H0; unfold limit; lia).
  assert (HQs : seq_nr q = s_seq_nr (sk s)) by (unfold q; rewrite seq_wire; cbn [h_seq]; apply u16_small; lia).
  assert (HT : exists s', transmit q (ticked t0) = (match w_send (wd s) (w_stick (wd s)) with SendErr k => Fail (Throw k) | _ => Fail Pend end, s') /\
     sk s' = sk t0 /\ w_sent (wd s') = w_sent (wd s) /\ w_in (wd s') = w_in (wd s) /\ w_send (wd s') = w_send (wd s) /\ w_stick (wd s') = S (w_stick (wd s))).
  { unfold transmit, bind at 1, get_sk at 1. change (s_last_acked (sk (ticked t0))) with (s_last_acked (sk s)). rewrite HQs. replace (_ <? _) with false by lia.
    unfold bind at 1, now_microseconds. cbv zeta. unfold bind at 1, udp_send. change (w_send (wd (mkSt _ _))) with (w_send (wd s)) at 1. change (w_stick (wd (mkSt _ _))) with (w_stick (wd s)) at 1.
    destruct (w_send (wd s) (w_stick (wd s))) as [|k|] eqn:EW; [congruence| |]; eexists; (split; [reflexivity|]); repeat split. }
  destruct HT as (s' & ET & Hsk & H1 & H2 & H3 & H4). rewrite ET. exists s'.
  split; [destruct (w_send (wd s) (w_stick (wd s))); reflexivity|]. split; [rewrite Hsk; reflexivity|]. auto.
Qed.

Lemma reach_failed d s o s' : reachable s -> send_to d s = (o, s') -> (forall l, o <> Fail (Panic l)) -> reachable s'.
Proof.
  intros HR E HN. apply (rc_op (OSendTo d) s (fst (run_op (OSendTo d) s)) s' HR).
  - unfold run_op, bind. rewrite E. destruct o; reflexivity.
  - unfold run_op, bind. rewrite E. destruct o as [|f]; cbn; [intros l; discriminate|]. intros l H. injection H as ->. now apply (HN l).
Qed.

Definition idle_open (s : st) : Prop := reachable s /\ s_state (sk s) = Connected /\ s_send_window (sk s) = [] /\ s_unsent_queue (sk s) = [].

Lemma hole_base d s evs ops : idle_open s -> (0 < length d <= 1380)%nat ->
  u16 (s_seq_nr (sk s) - s_last_acked (sk s)) <= u16 (s_last_acked (sk s) - s_seq_nr (sk s)) -> w_send (wd s) (w_stick (wd s)) <> SendOk ->
  exists s1, send_to d s = (send_result (w_send (wd s) (w_stick (wd s))), s1) /\ w_sent (wd s1) = w_sent (wd s) /\
    let s2 := mkSt (sk s1) (sw_in evs (wd s1)) in
    existsb panicked (fst (run_ops ops s2)) = false -> exists new, w_sent (wd (snd (run_ops ops s2))) = w_sent (wd s) ++ new /\
      forall dest p, In (dest, p) new -> get_type p = Some PData ->
        exists j c, nth_error (cut ops s2) j = Some c /\ packet_try_from p = Some (Ok p) /\ payload p = Some c /\ seq_nr p = (s_seq_nr (sk s) + 1 + Z.of_nat j) mod 65536 /\
          connection_id p = s_sender_connection_id (sk s).
Proof.
  intros (HR & HS & HW & HU) Hd HA HX. pose proof (r_seq _ (reachable_ranges s HR)) as HQ.
  assert (H0 : s_curr_window (sk s) = 0) by (pose proof (reachable_inflight s HR) as H; unfold inflight in H; rewrite HW in H; exact H).
  destruct (send_failed d s) as (s1 & E & Hk & H1 & H2 & H3 & H4); auto; [congruence|].
  exists s1. split; [exact E|]. split; [exact H1|]. intros s2 HP.
  assert (R1 : reachable s1) by (apply (reach_failed d s _ s1 HR E); intros l; destruct (w_send (wd s) (w_stick (wd s))); discriminate).
  destruct (original_data_cut ops s2) as (xs & EX & HXs); try exact HP; try (unfold s2; cbn [sk]; rewrite Hk; cbn; congruence); [apply rc_input; exact R1|].
  exists xs. split; [rewrite EX; unfold s2; cbn [wd sw_in]; change (w_sent (sw_in evs (wd s1))) with (w_sent (wd s1)); now rewrite H1|].
  intros dest p HI HT. destruct (HXs dest p HI HT) as (j & c & J1 & J2 & J3 & J4 & J5). exists j, c. split; [exact J1|]. split; [exact J2|]. split; [exact J3|].
  change (sk s2) with (sk s1) in J4, J5.
  replace (s_seq_nr (sk s1)) with (u16 (s_seq_nr (sk s) + 1)) in J4 by (rewrite Hk; reflexivity). replace (s_sender_connection_id (sk s1)) with (s_sender_connection_id (sk s)) in J5 by (rewrite Hk; reflexivity).
  split; [|exact J5]. rewrite J4. unfold u16, wrap. change (2 ^ 16) with 65536. now rewrite Zplus_mod_idemp_l.
Qed.

Lemma never_sent d s evs ops : idle_open s -> (0 < length d <= 1380)%nat ->
  u16 (s_seq_nr (sk s) - s_last_acked (sk s)) <= u16 (s_last_acked (sk s) - s_seq_nr (sk s)) -> w_send (wd s) (w_stick (wd s)) <> SendOk ->
  exists s1, send_to d s = (send_result (w_send (wd s) (w_stick (wd s))), s1) /\ w_sent (wd s1) = w_sent (wd s) /\
    let s2 := mkSt (sk s1) (sw_in evs (wd s1)) in
    existsb panicked (fst (run_ops ops s2)) = false -> packets_needed ops s2 <= 65535 -> exists new, w_sent (wd (snd (run_ops ops s2))) = w_sent (wd s) ++ new /\
      forall dest p, In (dest, p) new -> get_type p = Some PData -> seq_nr p <> s_seq_nr (sk s).
Proof.
  intros HI Hd HA HX. destruct (hole_base d s evs ops HI Hd HA HX) as (s1 & E & ES & H). exists s1. split; [exact E|]. split; [exact ES|]. intros s2 HP HN. destruct (H HP) as (new & EN & HF).
  exists new. split; [exact EN|]. intros dest p Hp HT. destruct (HF dest p Hp HT) as (j & c & J1 & _ & _ & J4 & _). rewrite J4.
  fold s2 in J1. assert (L : (j < length (cut ops s2))%nat) by (apply nth_error_Some; congruence). pose proof (cut_count ops s2) as LC. destruct HI as (HR & _). pose proof (r_seq _ (reachable_ranges s HR)). lia.
Qed.

Lemma never_read d s evs ops a r ns : idle_open s -> (0 < length d <= 1380)%nat ->
  u16 (s_seq_nr (sk s) - s_last_acked (sk s)) <= u16 (s_last_acked (sk s) - s_seq_nr (sk s)) -> w_send (wd s) (w_stick (wd s)) <> SendOk ->
  0 <= a -> s_seq_nr (sk s) = a + 1 -> reader_at a r -> s_receiver_connection_id (sk r) = s_sender_connection_id (sk s) -> all_sends_succeed r -> Forall (fun n => 0 < n)%nat ns ->
  exists s1, send_to d s = (send_result (w_send (wd s) (w_stick (wd s))), s1) /\
    let s2 := mkSt (sk s1) (sw_in evs (wd s1)) in
    existsb panicked (fst (run_ops ops s2)) = false -> a + packets_needed ops s2 < 65533 -> exists new, w_sent (wd (snd (run_ops ops s2))) = w_sent (wd s) ++ new /\
      ((forall e p, In e (w_in (wd r)) -> delivers e p -> In p (map snd new) /\ get_type p = Some PData) ->
       bytes_read (fst (run_ops (map ORecvFrom ns) r)) = []).
Proof.
  intros HI Hd HA HX Ha Hq HRd Hid HS Hns. destruct (hole_base d s evs ops HI Hd HA HX) as (s1 & E & _ & H). exists s1. split; [exact E|]. intros s2 HP HN.
  destruct (H HP) as (new & EN & HF). exists new. split; [exact EN|]. intros HE. pose proof (cut_count ops s2) as LC. fold s2 in HF.
  assert (HC : forall e p, In e (w_in (wd r)) -> delivers e p -> exists j c, nth_error (cut ops s2) j = Some c /\ payload p = Some c /\ seq_nr p = (a + 1 + Z.of_nat (S j)) mod 65536 /\
    connection_id p = s_sender_connection_id (sk s) /\ get_type p = Some PData).
  { intros e p He Hp. destruct (HE e p He Hp) as (H1 & H2). apply in_map_iff in H1 as ((dest & p') & <- & H1). cbn [snd] in *.
    destruct (HF dest p' H1 H2) as (j & c & J1 & _ & J3 & J4 & J5). exists j, c. split; [exact J1|]. split; [exact J3|]. split; [|split; [exact J5|exact H2]]. rewrite J4, Hq. f_equal. lia. }
  pose proof (reader_not_skipped a (d :: cut ops s2) r ns 0) as RS. destruct RS as (rest & ER); auto.
  - cbn [length]. lia.
  - constructor; [intros ->; cbn in Hd; lia|]. apply Forall_forall. intros c Hc ->. apply cut_sizes in Hc. cbn in Hc. lia.
  - apply Forall_forall. intros e He p Hp. destruct (HC e p He Hp) as (j & c & J1 & J2 & J3 & J4 & J5). split; [right; congruence|]. left. exists (S j). split; [exact J5|]. split; [exact J3|]. exists c. split; [exact J1|exact J2].
  - cbn. lia.
  - intros (e & He & p & Hp & _ & HQ & _). destruct (HC e p He Hp) as (j & c & J1 & _ & J3 & _). assert (L : (j < length (cut ops s2))%nat) by (apply nth_error_Some; congruence). rewrite J3 in HQ.
    rewrite !Z.mod_small in HQ by lia. lia.
  - cbn in ER. now destruct (bytes_read _).
Qed.

Lemma send_closed d s : s_state (sk s) = Closed -> send_to d s = (Fail (Throw KNotConnected), s).
Proof. intros H. unfold send_to, bind, get_sk. rewrite H. reflexivity. Qed.
