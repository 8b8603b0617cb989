(** In-order streams of any length (property C20). *)
From Verif Require Export StreamRxProofs.
Require Import ZifyBool ZifyNat ZifyN.
Local Open Scope Z_scope.
Ltac Zify.zify_post_hook ::= Z.div_mod_to_equations.

(** [es] brings positions [j], [j+1], ... of the stream, each once. *)
Fixpoint in_order (a : Z) (chunks : list (list byte)) (i1 i2 : Z) (j : nat) (es : list rx) : Prop :=
  match es with
  | [] => True
  | e :: rest => (exists p, delivers e p /\ carries a chunks p j /\ addressed i1 i2 p) /\ in_order a chunks i1 i2 (S j) rest
  end.

(** Decision procedure for concrete scripts, used by examples only. *)
Fixpoint in_orderb (a : Z) (chunks : list (list byte)) (i1 i2 : Z) (j : nat) (es : list rx) : bool :=
  match es with
  | [] => true
  | RxDgram d _ :: rest =>
    match packet_try_from (firstn 1520 d) with
    | Some (Ok p) =>
      match get_type p, nth_error chunks j, payload p with
      | Some PData, Some c, Some pl => (seq_nr p =? (a + 1 + Z.of_nat j) mod 65536) && bytes_eqb c pl && ((connection_id p =? i1) || (connection_id p =? i2))
      | _, _, _ => false
      end
    | _ => false
    end && in_orderb a chunks i1 i2 (S j) rest
  | _ => false
  end.
Lemma in_order_sound a chunks i1 i2 es : forall j, in_orderb a chunks i1 i2 j es = true -> in_order a chunks i1 i2 j es.
Proof.
  induction es as [|e es IH]; intros j H; cbn [in_order in_orderb] in *; [exact I|]. destruct e as [d src| |]; try discriminate.
  apply andb_prop in H as [H H2]. split; [|now apply IH]. destruct (packet_try_from _) as [[p| ]|] eqn:EP; try discriminate.
  destruct (get_type p) as [[]|] eqn:ET; try discriminate. destruct (nth_error chunks j) as [c|] eqn:EN; [|discriminate].
  destruct (payload p) as [pl|] eqn:EL; [|discriminate]. apply andb_prop in H as [H H3]. apply andb_prop in H as [H H1]. exists p.
  split; [exists d, src; auto|]. split; [split; [exact ET|split; [lia|]]|].
  - exists c. split; [exact EN|]. unfold bytes_eqb in H1. destruct (list_eq_dec _ _ _); congruence.
  - apply orb_prop in H3 as [H3|H3]; [left|right]; lia.
Qed.

Lemma flush_ready n s p rest pl : s_pending_data (sk s) = [] -> s_incoming_buffer (sk s) = p :: rest -> s_ack_nr (sk s) = seq_nr p -> payload p = Some pl ->
  flush_incoming_buffer n s = (Ret (firstn n pl),
    mkSt (if (length (firstn n pl) =? length pl)%nat then advance_socket (sk s) else ss_pending_data (skipn (length (firstn n pl)) pl) (sk s)) (wd s)).
Proof.
  intros EP EB EA EL. unfold flush_incoming_buffer, bind at 1, get_sk at 1. rewrite EP, EB. cbn [is_nil negb]. rewrite EA, Z.eqb_refl.
  unfold bind at 1, ret at 1, bind at 1. rewrite EL. cbn [unwrap ret]. unfold advance_incoming_buffer.
  destruct (_ =? _)%nat; unfold bind, upd_sk, ret; reflexivity.
Qed.
Lemma flush_pending n s b l : s_pending_data (sk s) = b :: l ->
  flush_incoming_buffer n s = (Ret (firstn n (b :: l)),
    mkSt (if (length (firstn n (b :: l)) =? length (b :: l))%nat then advance_socket (ss_pending_data [] (sk s)) else ss_pending_data (skipn (length (firstn n (b :: l))) (b :: l)) (sk s)) (wd s)).
Proof.
  intros EP. unfold flush_incoming_buffer, bind at 1, get_sk at 1. rewrite EP. cbn [is_nil negb]. cbv zeta. unfold advance_incoming_buffer.
  destruct (_ =? _)%nat; unfold bind, upd_sk, ret; reflexivity.
Qed.
Lemma flush_empty n s : s_pending_data (sk s) = [] -> s_incoming_buffer (sk s) = [] -> flush_incoming_buffer n s = (Ret [], s).
Proof. intros EP EB. unfold flush_incoming_buffer, bind at 1, get_sk at 1. rewrite EP, EB. reflexivity. Qed.

(** The first datagram a reader with nothing in store gets. *)
Lemma recv_from_first n s : s_pending_data (sk s) = [] -> s_incoming_buffer (sk s) = [] -> s_state (sk s) = Connected ->
  recv_from n s = match recv n s with
  | (Ret (d, src), s') => if is_nil d then loop (length (w_in (wd s))) (fun _ : unit =>
      s <- get_sk ;; if sstate_eqb (s_state s) Closed then ret (inr ([], s_connected_to s)) else
        x <- recv n ;; if is_nil (fst x) then ret (inl tt) else ret (inr x)) tt s' else (Ret (d, src), s')
  | (Fail f, s') => (Fail f, s') end.
Proof.
  intros EP EB ES. unfold recv_from, bind at 1. rewrite (flush_empty n s EP EB). unfold bind at 1, get_sk at 1. cbn [is_nil negb]. rewrite ES. cbn [sstate_eqb].
  unfold bind at 1, event_fuel. cbn [loop]. unfold bind at 1, bind at 1, get_sk at 1. rewrite ES. cbn [sstate_eqb]. unfold bind at 1.
  destruct (recv n s) as [[[d src]|f] s']; [|reflexivity]. cbn [fst]. destruct (is_nil d); reflexivity.
Qed.
Lemma recv_blocks n s : w_in (wd s) = [] -> 0 < s_max_retries (sk s) -> recv n s = (Fail Pend, s).
Proof.
  intros HI HM. unfold recv, bind at 1, event_fuel. rewrite HI. cbn [length]. change (recv_fuel 1 n) with (recv_body (recv_fuel 0) n).
  unfold recv_body, bind at 1, wait_datagram, bind at 1, event_fuel. rewrite HI. cbn [loop length]. unfold bind at 1, bind at 1, get_sk at 1.
  replace (s_max_retries (sk s) <=? 0) with false by lia. unfold bind at 1, udp_recv. now rewrite HI.
Qed.

Section Order.
  Variables (a : Z) (chunks : list (list byte)) (i1 i2 : Z).
  Hypothesis Hne : Forall (fun c => c <> []) chunks.
  Notation N := (length chunks).
  Notation carries := (carries a chunks).

  Definition common (s : st) : Prop :=
    s_state (sk s) = Connected /\ s_sender_connection_id (sk s) = i1 /\ s_receiver_connection_id (sk s) = i2 /\ 0 < s_max_retries (sk s) /\ all_sends_succeed s.
  (** [d] whole packets handed out, nothing in store. *)
  Definition at_rest (d : nat) (s : st) : Prop :=
    common s /\ s_pending_data (sk s) = [] /\ s_incoming_buffer (sk s) = [] /\ 0 <= s_last_dropped (sk s) < 65536 /\ 
    s_last_dropped (sk s) <> (a + 1 + Z.of_nat d) mod 65536 /\
    (s_ack_nr (sk s) = (a + Z.of_nat d) mod 65536 \/ s_ack_nr (sk s) = (a + 1 + Z.of_nat d) mod 65536).
  (** ... and the packet after them in part. *)
  Definition in_part (d : nat) (pre : list byte) (s : st) : Prop :=
    common s /\ s_pending_data (sk s) <> [] /\ nth_error chunks d = Some (pre ++ s_pending_data (sk s)) /\
    exists p, s_incoming_buffer (sk s) = [p] /\ carries p d.
  Definition place (out : list byte) (s : st) : Prop := exists d,
    (at_rest d s /\ out = concat (firstn d chunks) /\ in_order a chunks i1 i2 d (w_in (wd s)) /\ (d + length (w_in (wd s)) = N)%nat) \/
    (exists pre, in_part d pre s /\ out = concat (firstn d chunks) ++ pre /\ in_order a chunks i1 i2 (S d) (w_in (wd s)) /\ (S d + length (w_in (wd s)) = N)%nat).

  Lemma popped d p s k' : common s -> carries p d -> s_incoming_buffer (sk s) = [p] -> k' = advance_socket (ss_pending_data [] (sk s)) -> at_rest (S d) (mkSt k' (wd s)).
  Proof.
    intros HC Hp EB ->. unfold advance_socket. sproj. rewrite EB. destruct Hp as (_ & E & _). split; [exact HC|]. sproj. rewrite E.
    split; [reflexivity|]. split; [reflexivity|]. split; [lia|]. split; [lia|]. left. f_equal. lia.
  Qed.
  Lemma advance_same k : s_pending_data k = [] -> advance_socket k = advance_socket (ss_pending_data [] k).
  Proof. intros E. destruct k; cbn in E; subst. reflexivity. Qed.

  (** One read. *)
  Lemma order_read n out s : (0 < n)%nat -> place out s ->
    (exists d src s', recv_from n s = (Ret (d, src), s') /\ d <> [] /\ place (out ++ d) s') \/
    (recv_from n s = (Fail Pend, s) /\ s_pending_data (sk s) = [] /\ w_in (wd s) = []).
  Proof.
    intros Hn (d & [(HR & -> & HO & HLn0)|(pre & (HC & HP & HX & p & EB & Hp) & -> & HO & HLn0)]).
    - destruct HR as (HC & EP & EB & HL & HLn & HA). destruct HC as (ES & EI1 & EI2 & HM & HT). rewrite (recv_from_first n s EP EB ES).
      destruct (w_in (wd s)) as [|e rest] eqn:EW.
      { right. rewrite (recv_blocks n s EW HM). auto. }
      left. destruct HO as [(p & (dg & src & -> & EPa) & Hp & HAd) HO].
      assert (HOwn : own_id (sk s) p) by (unfold own_id; rewrite EI1, EI2; exact HAd).
      rewrite (recv_first n dg src rest s EW HM).
      change 1520%nat with (BUF_SIZE + HEADER_SIZE)%nat in EPa. rewrite (process_packet _ _ _ _ p PData _ EPa (proj1 Hp)). unfold bind at 1.
      rewrite (handle_own _ p src PData (rx_state s) (proj1 Hp) (or_introl HOwn)).
      destruct (Hp) as (HTy & HSq & c & Hc & HPl).
      assert (Hcn : c <> []) by (rewrite Forall_forall in Hne; apply Hne; eapply nth_error_In; exact Hc).
      assert (EK : exists k1, noted p (rx_state s) = mkSt k1 (wd (ticked (rx_state s))) /\ s_ack_nr k1 = seq_nr p /\ s_state k1 = Connected /\ s_incoming_buffer k1 = [] /\
         s_pending_data k1 = [] /\ s_last_dropped k1 = s_last_dropped (sk s) /\ s_sender_connection_id k1 = i1 /\ s_receiver_connection_id k1 = i2 /\ 0 < s_max_retries k1).
      { eexists. split; [reflexivity|]. sproj. cbn [rx_state sk].
        rewrite (acked_other s_state), (acked_other s_incoming_buffer), (acked_other s_pending_data), (acked_other s_last_dropped), (acked_other s_sender_connection_id), (acked_other s_receiver_connection_id), (acked_other s_max_retries) by reflexivity.
        split; [|auto 10]. unfold acked_sk. rewrite u16_eq, HSq. destruct HA as [HA|HA]; rewrite HA.
        - replace (_ =? 1) with true by lia. reflexivity.
        - replace (_ =? 1) with false by lia. exact HA. }
      destruct EK as (k1 & EN & K1 & K2 & K3 & K4 & K5 & K6 & K7 & K8). rewrite EN. unfold dispatch, bind at 1, get_sk at 1. cbn [sk]. rewrite K2.
      rewrite data_reply_full by (right; right; exact K3).
      unfold answer, bind at 1, bind at 1. match goal with |- context [udp_send src ?q ?t] => assert (EX : tx_ok t = true) by (unfold tx_ok; cbn [ticked wd]; sproj; unfold rx_state; sproj; now rewrite HT); rewrite (send_ok_eq src q t EX); set (t1 := tx_state src q t) end.
      assert (T1 : sk t1 = k1) by reflexivity. assert (T2 : w_in (wd t1) = rest) by (unfold t1; rewrite in_tx; unfold rx_state, ticked; sproj; now rewrite EW).
      assert (T3 : all_sends_succeed t1) by (apply sends_tx; exact HT). clearbody t1. clear EX.
      cbn [try_ ret]. unfold bind at 1, get_sk at 1. rewrite T1, K5. replace (ptype_eqb PData PData && (0 <? u16 (seq_nr p - s_last_dropped (sk s)))) with true
        by (rewrite u16_eq, HSq; cbn [ptype_eqb andb]; lia).
      unfold insert_into_buffer, bind at 1, upd_sk at 1. rewrite T1, K3. change (insert_packet p []) with [p]. unfold bind at 1.
      rewrite (flush_ready n _ p [] c) by (sproj; auto). cbn [ret]. sproj.
      destruct c as [|b0 c]; [congruence|]. destruct n as [|n]; [lia|]. remember (firstn (S n) (b0 :: c)) as dd eqn:Edd.
      assert (Hdd : dd <> []) by (subst dd; discriminate). destruct dd as [|b1 dd]; [congruence|]. cbn [is_nil].
      eexists. eexists. eexists. split; [reflexivity|]. split; [discriminate|].
      assert (HCk : common (mkSt (ss_incoming_buffer [p] k1) (wd t1))) by (split; [exact K2|]; split; [exact K6|]; split; [exact K7|]; split; [exact K8|exact T3]).
      exists (if (length (b1 :: dd) =? length (b0 :: c))%nat then S d else d). destruct (_ =? _)%nat eqn:EQ.
      + left. split; [apply (popped d p (mkSt (ss_incoming_buffer [p] k1) (wd t1))); auto; apply advance_same; exact K4|].
        split; [|sproj; rewrite T2; split; [exact HO|cbn [length] in HLn0; lia]]. rewrite Edd in EQ |- *. rewrite (firstn_all_or (S n) _ EQ). symmetry. now apply firstn_next.
      + right. exists (b1 :: dd). split; [|split; [reflexivity|sproj; rewrite T2; split; [exact HO|cbn [length] in HLn0; lia]]].
        assert (HLen : length (b1 :: dd) = S n) by (rewrite Edd in EQ |- *; rewrite firstn_length in EQ |- *; lia).
        split; [exact HCk|]. sproj. rewrite HLen. split; [|split; [rewrite Edd, firstn_skipn; exact Hc|exists p; auto]].
        intros E. apply (f_equal (@length byte)) in E. rewrite skipn_length in E. rewrite Edd, firstn_length in EQ. cbn [length] in *. lia.
    - left. destruct (s_pending_data (sk s)) as [|b0 l] eqn:EP; [congruence|]. unfold recv_from, bind at 1. rewrite (flush_pending n s b0 l EP).
      destruct n as [|n]; [lia|]. remember (firstn (S n) (b0 :: l)) as dd eqn:Edd.
      assert (Hdd : dd <> []) by (subst dd; discriminate). destruct dd as [|b1 dd]; [congruence|].
      unfold bind, get_sk. cbn [is_nil negb ret]. eexists. eexists. eexists. split; [reflexivity|]. split; [discriminate|].
      exists (if (length (b1 :: dd) =? length (b0 :: l))%nat then S d else d). destruct (_ =? _)%nat eqn:EQ.
      + left. split; [apply (popped d p s); auto|]. split; [|split; [exact HO|exact HLn0]]. rewrite Edd in EQ |- *. rewrite (firstn_all_or (S n) _ EQ). rewrite <- app_assoc. symmetry. now apply firstn_next.
      + right. exists (pre ++ b1 :: dd). split; [|split; [now rewrite app_assoc|split; [exact HO|exact HLn0]]].
        assert (HLen : length (b1 :: dd) = S n) by (rewrite Edd in EQ |- *; rewrite firstn_length in EQ |- *; lia).
        split; [exact HC|]. sproj. rewrite HLen, Edd. rewrite <- app_assoc, firstn_skipn. split; [|split; [exact HX|exists p; auto]].
        intros E. apply (f_equal (@length byte)) in E. rewrite skipn_length in E. rewrite Edd, firstn_length in EQ. cbn [length] in *. lia.
  Qed.

  Lemma place_prefix out s : place out s -> exists rest, concat chunks = out ++ rest /\ (s_pending_data (sk s) = [] -> w_in (wd s) = [] -> rest = []).
  Proof.
    assert (HH : forall d, concat chunks = concat (firstn d chunks) ++ concat (skipn d chunks)) by (intros d; now rewrite <- concat_app, firstn_skipn).
    intros (d & [(HR & -> & HO & HL)|(pre & (HC & HP & HX & _) & -> & HO & HL)]).
    - exists (concat (skipn d chunks)). split; [apply HH|]. intros _ E. rewrite E in HL. cbn in HL. rewrite skipn_all2 by lia. reflexivity.
    - exists (s_pending_data (sk s) ++ concat (skipn (S d) chunks)). split; [rewrite (HH (S d)), (firstn_next chunks d _ HX); now rewrite <- !app_assoc|]. intros E. congruence.
  Qed.
  Definition fine (o : outcome value) : Prop := (exists d src, o = Ret (VData d src) /\ d <> []) \/ o = Fail Pend.
  Lemma order_run ns : forall out s, Forall (fun n => 0 < n)%nat ns -> place out s ->
    let '(rs, s') := run_ops (map ORecvFrom ns) s in
    Forall fine rs /\ place (out ++ bytes_read rs) s' /\ (In (Fail Pend) rs -> s_pending_data (sk s') = [] /\ w_in (wd s') = []) /\
    (In (Fail Pend) rs \/ (length ns <= length (bytes_read rs))%nat).
  Proof.
    induction ns as [|n ns IH]; intros out s HF HP; cbn [map run_ops].
    { unfold bytes_read. cbn. rewrite app_nil_r. split; [constructor|]. split; [exact HP|]. split; [tauto|]. right. lia. }
    inversion HF as [|? ? Hn HF']; subst. cbn [run_op]. unfold bind at 1. destruct (order_read n out s Hn HP) as [(d & src & s1 & E & Hd & HP1)|(E & E1 & E2)]; rewrite E; cbn [ret fst snd].
    - specialize (IH (out ++ d) s1 HF' HP1). destruct (run_ops (map ORecvFrom ns) s1) as [rs s2]. destruct IH as (I1 & I2 & I3 & I4).
      split; [constructor; [left; eauto|exact I1]|]. rewrite read_cons. cbn [bytes_of]. rewrite app_assoc. split; [exact I2|]. split; [intros [H|H]; [discriminate|auto]|].
      destruct I4 as [I4|I4]; [left; cbn; auto|right]. rewrite app_length. destruct d; [congruence|]. cbn [length]. lia.
    - specialize (IH out s HF' HP). destruct (run_ops (map ORecvFrom ns) s) as [rs s2] eqn:E3. destruct IH as (I1 & I2 & I3 & I4).
      split; [constructor; [right; reflexivity|exact I1]|]. rewrite read_cons. cbn [bytes_of app]. split; [exact I2|]. split; [|left; cbn; auto].
      intros _. revert E3 E1 E2 HP HF' I3. clear - Hne. intros E3 E1 E2 HP HF' I3. destruct ns as [|n1 ns]; [injection E3 as <- <-; auto|].
      apply I3. cbn [map run_ops] in E3. cbn [run_op] in E3. unfold bind at 1 in E3. destruct (order_read n1 out s) as [(d & src & s1 & E & Hd & HP1)|(E & _)]; [now inversion HF'|exact HP| |].
      + exfalso. destruct HP as (d0 & [(HR & _ & HO & HL)|(pre & (_ & HX & _) & _)]); [|congruence].
        assert (EQ : recv_from n1 s = (Fail Pend, s)). { destruct HR as ((ES & _ & _ & HM & _) & EP & EB & _). rewrite (recv_from_first n1 s EP EB ES), (recv_blocks n1 s E2 HM). reflexivity. }
        congruence.
      + rewrite E in E3. destruct (run_ops (map ORecvFrom ns) s) as [rs' s'']. injection E3 as <- _. cbn. auto.
  Qed.

  Theorem order_all s ns : common s -> s_pending_data (sk s) = [] -> s_incoming_buffer (sk s) = [] -> 0 <= s_last_dropped (sk s) < 65536 ->
    s_last_dropped (sk s) <> (a + 1) mod 65536 -> s_ack_nr (sk s) = a mod 65536 \/ s_ack_nr (sk s) = (a + 1) mod 65536 ->
    in_order a chunks i1 i2 0 (w_in (wd s)) -> length (w_in (wd s)) = N -> Forall (fun n => 0 < n)%nat ns ->
    Forall fine (fst (run_ops (map ORecvFrom ns) s)) /\
    (exists rest, concat chunks = bytes_read (fst (run_ops (map ORecvFrom ns) s)) ++ rest) /\
    (In (Fail Pend) (fst (run_ops (map ORecvFrom ns) s)) \/ (length (concat chunks) <= length ns)%nat -> bytes_read (fst (run_ops (map ORecvFrom ns) s)) = concat chunks).
  Proof.
    intros HC HP HB HL HLn HA HO HLen HF. assert (HPl : place [] s).
    { exists 0%nat. left. split; [|cbn [firstn concat]; auto]. split; [exact HC|]. cbn [Z.of_nat]. rewrite !Z.add_0_r. auto 10. }
    pose proof (order_run ns [] s HF HPl) as H. destruct (run_ops (map ORecvFrom ns) s) as [rs s']. cbn [fst] in *. cbn [app] in H. destruct H as (H1 & H2 & H3 & H4).
    destruct (place_prefix _ _ H2) as (rest & E & HE). split; [exact H1|]. split; [eauto|].
    assert (HX : In (Fail Pend) rs -> bytes_read rs = concat chunks). { intros HI. destruct (H3 HI) as [E1 E2]. rewrite E, (HE E1 E2), app_nil_r. reflexivity. }
    intros [HI|HI]; [now apply HX|]. destruct H4 as [H4|H4]; [now apply HX|]. rewrite E in *. rewrite app_length in HI. destruct rest; [now rewrite app_nil_r|cbn in HI; lia].
  Qed.
End Order.

Lemma order_reads a chunks s ns :
  Forall (fun c => c <> []) chunks ->
  s_state (sk s) = Connected -> 0 < s_max_retries (sk s) -> all_sends_succeed s ->
  s_pending_data (sk s) = [] -> s_incoming_buffer (sk s) = [] ->
  0 <= s_last_dropped (sk s) < 65536 -> s_last_dropped (sk s) <> (a + 1) mod 65536 ->
  s_ack_nr (sk s) = a mod 65536 \/ s_ack_nr (sk s) = (a + 1) mod 65536 ->
  in_order a chunks (s_sender_connection_id (sk s)) (s_receiver_connection_id (sk s)) 0 (w_in (wd s)) -> length (w_in (wd s)) = length chunks ->
  Forall (fun n => 0 < n)%nat ns ->
  Forall (fun o => (exists d src, o = Ret (VData d src) /\ d <> []) \/ o = Fail Pend) (fst (run_ops (map ORecvFrom ns) s)) /\
  prefix_of (bytes_read (fst (run_ops (map ORecvFrom ns) s))) (concat chunks) /\
  (In (Fail Pend) (fst (run_ops (map ORecvFrom ns) s)) \/ (length (concat chunks) <= length ns)%nat ->
   bytes_read (fst (run_ops (map ORecvFrom ns) s)) = concat chunks).
Proof.
  intros Hne HS HM HT HP HB HL HLn HA HO HLen HF. apply (order_all a chunks (s_sender_connection_id (sk s)) (s_receiver_connection_id (sk s)) Hne); auto. split; [exact HS|]. auto.
Qed.
