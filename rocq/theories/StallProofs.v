(** A reader whose buffer starts with a packet behind the acknowledgement number delivers nothing more (C21). *)
From Verif Require Export RecvProofs.
Require Import ZifyBool ZifyNat ZifyN.
Local Open Scope Z_scope.
Ltac Zify.zify_post_hook ::= Z.div_mod_to_equations.

Section Stall.
  (** The events that may still arrive, or have arrived; no packet among them carries the number 0. *)
  Variable evs : list rx.
  Definition heard (p : packet) (src : addr) : Prop :=
    exists d, In (RxDgram d src) evs /\ packet_try_from (firstn 1520 d) = Some (Ok p).
  Definition Ge (p : packet) (src : addr) : Prop := valid p /\ heard p src.
  Definition piece (d : list byte) : Prop := False.
  Hypothesis nonzero : forall p src, heard p src -> seq_nr p <> 0.
  Definition stall (k : socket) : Prop := s_pending_data k = [] /\ s_state k <> New /\ s_state k <> SynSent /\
    match s_incoming_buffer k with [] => False | p :: _ => 1 <= seq_nr p < s_ack_nr k /\ s_ack_nr k <= 65535 end.

  Lemma Ge_valid p src : Ge p src -> valid p. Proof. now intros []. Qed.
  Lemma stall_eq k k' : s_incoming_buffer k' = s_incoming_buffer k -> s_pending_data k' = s_pending_data k -> s_ack_nr k' = s_ack_nr k ->
    (s_state k <> New -> s_state k <> SynSent -> s_state k' <> New /\ s_state k' <> SynSent) -> stall k -> stall k'.
  Proof. unfold stall. intros -> -> -> H4 (H1 & H2 & H3 & H). destruct (H4 H2 H3). auto. Qed.
  Lemma stall_insert p k : 1 <= seq_nr p -> stall k -> stall (ss_incoming_buffer (insert_packet p (s_incoming_buffer k)) k).
  Proof.
    clear nonzero. intros HP (H1 & H2 & H3 & H). unfold stall. sproj. split; [exact H1|]. split; [exact H2|]. split; [exact H3|]. unfold insert_packet.
    destruct (s_incoming_buffer k) as [|h buf]; [contradiction|]. destruct (match last_opt _ with Some _ => _ | None => _ end); [exact H|].
    cbv zeta. destruct (match nth_error _ _ with Some _ => _ | None => _ end); [|exact H]. cbn [filter]. destruct (seq_nr h <? seq_nr p) eqn:E; [exact H|].
    destruct (length (filter _ buf)); [cbn [firstn app]; lia|exact H].
  Qed.
  Lemma stall_flush n k : stall k -> flush_sk n k = ([], k).
  Proof.
    clear nonzero. intros (H1 & _ & _ & H). unfold flush_sk. rewrite H1. destruct (s_incoming_buffer k) as [|p rest]; [contradiction|]. rewrite u16_eq.
    pose proof (seq_nr_range p). replace (_ || _) with false by lia. reflexivity.
  Qed.
  Lemma skstep_stall k k' : skstep Ge k k' -> stall k -> stall k'.
  Proof.
    intros H HP; destruct H; try (match goal with H : stall ?x |- _ => eapply (stall_eq x) end; [reflexivity|reflexivity|reflexivity| |exact HP]; try sproj; intros ? ?; split; solve [assumption|cbn; discriminate|cbn; assumption]); try (now destruct HP as (_ & ? & ? & _)).
    - destruct HP as (H1 & H2 & H3 & HP). unfold stall. sproj. split; [exact H1|]. split; [exact H2|]. split; [exact H3|]. destruct (s_incoming_buffer k); [contradiction|].
      destruct H as [_ H]. apply nonzero in H. pose proof (seq_nr_range p). rewrite u16_eq in H0. lia.
    - unfold base_delay_socket. destruct (_ || _); [eapply stall_eq; [..|exact HP]; try reflexivity; auto|]. cbv zeta. destruct (_ <? _); [eapply stall_eq; [..|exact HP]; try reflexivity; auto|exact HP].
    - apply stall_insert; [|exact HP]. destruct H as [_ H]. apply nonzero in H. pose proof (seq_nr_range p). lia.
    - now rewrite stall_flush.
  Qed.
  Lemma ostep_stall s s' : ostep Ge W0 s s' -> stall (sk s) -> stall (sk s').
  Proof.
    intros H HP. destruct H as [s s' H|s ch HW|s p rest HU|s p HW|s ts Hts HW HS|s HW HS|s n Hn]; try exact HP; try (match goal with H : stall ?x |- _ => eapply (stall_eq x) end; [reflexivity|reflexivity|reflexivity| |exact HP]; try sproj; intros ? ?; split; solve [assumption|cbn; discriminate|cbn; assumption]).
    destruct H as [s k H|s|s|s ev rest H|s dest p H]; try exact HP. now apply (skstep_stall _ _ H).
  Qed.
  Lemma prov_flush n k : stall k -> stall (snd (flush_sk n k)) /\ (fst (flush_sk n k) = [] \/ piece (fst (flush_sk n k))).
  Proof. intros H. rewrite stall_flush by exact H. auto. Qed.
  Definition PI (s : st) : Prop := opre Ge W0 s /\ stall (sk s).
  Lemma osteps_PI s s' : osteps Ge W0 s s' -> PI s -> PI s'.
  Proof. intros H [H1 H2]. split; [now apply (osteps_opre _ _ W0_ts _ _ H)|]. revert H2. apply (osteps_ind_inv Ge W0 (fun s => stall (sk s))); [|exact H]. intros t t'. apply ostep_stall. Qed.
  (** A call that keeps the invariant and returns a piece of a data packet, or nothing. *)
  Definition yields (m : M (list byte * addr)) : Prop := forall s, PI s -> wp m (fun o s' =>
    match o with Ret (d, _) => PI s' /\ (d = [] \/ piece d) | Fail (Panic _) => True | _ => PI s' end) s.
  Lemma steps_PI {A} (m : M A) V : rspec Ge W0 m V -> forall s, PI s -> wp m (fun o s' => match o with Ret a => PI s' /\ V a s' | Fail (Panic _) => True | _ => PI s' end) s.
  Proof.
    intros H s HP. eapply wp_conseq; [apply H, HP|]. intros [a|[k|l| |]] s' HS; cbn in HS; auto; try (eapply osteps_PI; [apply steps_osteps; exact HS|exact HP]).
    destruct HS as [HS HV]. split; [|exact HV]. eapply osteps_PI; [apply steps_osteps; exact HS|exact HP].
  Qed.
  Lemma flush_PI n s : PI s -> wp (flush_incoming_buffer n) (fun o s' => match o with Ret d => PI s' /\ (d = [] \/ piece d) | Fail (Panic _) => True | _ => PI s' end) s.
  Proof.
    intros HP. eapply wp_conseq; [apply flush_incoming_spec|]. intros [d|[k|l| |]] s' H; auto; try contradiction. destruct H as [-> ->].
    split; [|apply prov_flush, HP]. eapply osteps_PI; [|exact HP]. apply rt_step, os_step, st_sk, k_flush.
  Qed.
  Lemma process_yields rec n b src : (forall m, rspec Ge W0 (rec m) any) -> (forall p, packet_try_from b = Some (Ok p) -> Ge p src) -> yields (process_datagram rec n b src).
  Proof.
    intros Hrec HG s HP. unfold process_datagram. wstep. apply wp_unwrap; [|intros; exact I]. intros [p|e] Hp; [|do 3 wstep; auto].
    specialize (HG p Hp). wstep. eapply wp_conseq; [apply (steps_PI _ _ (handle_packet_steps Ge W0 Ge_valid W0_ts W0_tsd rec Hrec p src HG)), HP|].
    intros [reply|[k|l| |]] s1 H1; auto. destruct H1 as [H1 HR]. wstep.
    assert (HT : wp (match reply with Some pkt => r <- udp_send src (set_wnd_size WINDOW_SIZE pkt) ;; try_ r | None => ret tt end)
      (fun o s' => PI s' /\ match o with Fail (Panic _) => False | _ => True end) s1).
    { destruct reply as [r|]; [|wstep; auto].
      assert (HE : forall v, PI (tx_state src (set_wnd_size WINDOW_SIZE r) s1) /\ match @try_ unit v (tx_state src (set_wnd_size WINDOW_SIZE r) s1) with (Fail (Panic _), _) => False | (_, s') => s' = tx_state src (set_wnd_size WINDOW_SIZE r) s1 end).
      { intros v. split; [|destruct v; reflexivity]. eapply osteps_PI; [|exact H1]. apply rt_step, os_step, st_tx. eapply is_reply_emits; [now apply HR|exact HG]. }
      wstep. apply wp_udp_send; intros; try (unfold wp; cbn; split; [apply (HE (Ok tt))|exact I]). }
    eapply wp_conseq; [exact HT|]. intros [[]|[k|l| |]] s2 [H2 HZ]; auto.
    unfold m_get_type. destruct (valid_type p (proj1 HG)) as [ty Hty]. wstep. rewrite Hty. cbn [unwrap]. do 3 wstep. wstep.
    assert (HI : wp (if ptype_eqb ty PData && (0 <? u16 (seq_nr p - s_last_dropped (sk s2))) then insert_into_buffer p else ret tt) (fun o s' => o = Ret tt /\ PI s') s2).
    { destruct (_ && _) eqn:EC; [|wstep; auto]. apply andb_prop in EC as [E1 E2]. apply ptype_eqb_true in E1. subst ty. unfold insert_into_buffer. wstep. split; [reflexivity|].
      eapply osteps_PI; [|exact H2]. apply rt_step, os_step, st_sk. eapply k_insert; [exact HG|exact Hty|lia]. }
    eapply wp_conseq; [exact HI|]. intros o s3 [-> H3]. wstep. eapply wp_conseq; [apply flush_PI, H3|]. intros [d|[k|l| |]] s4 H4; auto.
  Qed.
  Lemma recv_yields n : yields (recv n).
  Proof.
    intros s HP. unfold recv. do 2 wstep. cbn [recv_fuel]. unfold recv_body. wstep.
    eapply wp_conseq; [apply (steps_PI _ _ (wait_datagram_steps Ge W0 W0_ts)), HP|]. intros [[b src]|[k|l| |]] s1 H1; auto. destruct H1 as [H1 HG].
    apply process_yields; [|exact HG|exact H1]. intros m. apply recv_fuel_steps; [exact Ge_valid|exact W0_ts|exact W0_tsd].
  Qed.
  Lemma recv_from_yields n : yields (recv_from n).
  Proof.
    intros s HP. unfold recv_from. wstep. eapply wp_conseq; [apply flush_PI, HP|]. intros [d|[k|l| |]] s1 H1; auto. destruct H1 as [H1 HD]. do 2 wstep.
    destruct (negb (is_nil d)); [wstep; auto|]. destruct (sstate_eqb _ ResetReceived); [wstep; exact H1|]. do 2 wstep.
    apply (wp_loop (fun _ t => PI t)); [exact H1|intros _ t H; exact H|]. intros _ t HT. do 2 wstep. destruct (sstate_eqb _ Closed); [wstep; auto|].
    wstep. eapply wp_conseq; [apply recv_yields, HT|]. intros [[d' src]|[k|l| |]] t1 H2; auto. destruct H2 as [H2 H3]. cbn [fst]. destruct (is_nil d'); wstep; auto.
  Qed.
  Lemma run_op_yields o s : PI s -> wp (run_op o) (fun r s' => match r with Ret (VData d _) => PI s' /\ (d = [] \/ piece d) | Fail (Panic _) => True | _ => PI s' end) s.
  Proof.
    intros HP. destruct o as [n|data| | |n|].
    1: { cbn [run_op]. wstep. eapply wp_conseq; [apply recv_from_yields, HP|]. intros [[d src]|[k|l| |]] s' H; auto. }
    all: match goal with |- wp (run_op ?o) _ _ => pose proof (run_op_osteps Ge W0 Ge_valid W0_ts W0_tsd o s (op_queue_ok_W0 _ _) (proj1 HP)) as HW end;
      apply wp_intro; intros r s' E; unfold wp in HW; rewrite E in HW; cbn [fst snd] in HW;
      assert (HPI : osteps Ge W0 s s' -> PI s') by (intros HS; eapply osteps_PI; eassumption);
      (destruct r as [v|[k|l| |]]; cbn in HW; auto; destruct HW as [HW _]; destruct v as [d src| | |]; auto;
       exfalso; revert E; cbn [run_op]; unfold bind, ret, upd_sk; repeat match goal with |- context [match ?x with _ => _ end] => destruct x end; discriminate).
  Qed.
  Lemma run_ops_yields ops : forall s d src, PI s -> In (Ret (VData d src)) (fst (run_ops ops s)) -> d <> [] -> piece d.
  Proof.
    induction ops as [|o ops IH]; intros s d src HP HI HD; cbn [run_ops] in HI; [destruct HI|].
    pose proof (run_op_yields o s HP) as HW. unfold wp in HW. destruct (run_op o s) as [r s1]. cbn [fst snd] in HW.
    assert (HC : PI s1 -> In (Ret (VData d src)) (fst (let (rs, s'') := run_ops ops s1 in (r :: rs, s''))) -> (forall d' a, r = Ret (VData d' a) -> d' = [] \/ piece d') -> piece d).
    { intros H1 H2 H3. specialize (IH s1 d src H1). destruct (run_ops ops s1) as [rs s2]. cbn [fst] in *. destruct H2 as [->|H2]; [|auto]. destruct (H3 d src eq_refl); [congruence|assumption]. }
    destruct r as [v|[k|l| |]]; try (apply HC; [exact HW|exact HI|discriminate]).
    - destruct v as [d' a| | |]; try (apply HC; [exact HW|exact HI|discriminate]). destruct HW as [HW1 HW2]. apply HC; auto. intros ? ? [= <- <-]. exact HW2.
    - destruct HI as [HI|[]]. discriminate.
  Qed.
End Stall.
