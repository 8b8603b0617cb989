(** What a socket puts on the wire over a whole history (C59, C60). *)
From Verif Require Export ConnProofs Samples SpecStream.
Require Import ZifyBool ZifyNat ZifyN.
Local Open Scope Z_scope.
Ltac Zify.zify_post_hook ::= Z.div_mod_to_equations.

(** Everything but queueing new data; [f] allows the first transmission of a FIN. *)
Section Esteps.
  Variable f : bool.
  Variable G : packet -> addr -> Prop.
  Variable W : packet -> Prop.
  Hypothesis G_valid : forall p src, G p src -> valid p.
  Hypothesis W_ts : forall p t, W p -> W (set_timestamp t p).
  Hypothesis W_tsd : forall p t, W p -> W (set_timestamp_difference t p).

  Inductive estep : st -> st -> Prop :=
  | es_step s s' : step G W s s' -> estep s s'
  | es_pop s p rest : s_unsent_queue (sk s) = p :: rest -> estep s (mkSt (ss_unsent_queue rest (sk s)) (wd s))
  | es_push s p : W p ->
      estep s (mkSt (ss_send_window (s_send_window (sk s) ++ [p]) (ss_curr_window (u32 (s_curr_window (sk s) + u32 (packet_len p))) (sk s))) (wd s))
  | es_fin s ts : f = true -> 0 <= ts < 2 ^ 32 ->
      estep s (tx_state (s_connected_to (sk s))
        (wire (mkHdr PFin (s_sender_connection_id (sk s)) ts 0 0 (s_seq_nr (sk s)) (s_ack_nr (sk s))) [] []) s)
  | es_finsent s : f = true -> estep s (mkSt (ss_state FinSent (sk s)) (wd s))
  | es_retries s n : estep s (mkSt (ss_max_retries n (sk s)) (wd s)).
  Definition esteps := clos_refl_trans st estep.
  Lemma esteps_refl s : esteps s s. Proof. apply rt_refl. Qed.
  Lemma esteps_snoc s s1 s2 : esteps s s1 -> estep s1 s2 -> esteps s s2.
  Proof. intros H1 H2. eapply rt_trans; [exact H1|]. now apply rt_step. Qed.
  Lemma esteps_trans s s1 s2 : esteps s s1 -> esteps s1 s2 -> esteps s s2.
  Proof. intros. eapply rt_trans; eassumption. Qed.
  Lemma steps_esteps s s' : steps G W s s' -> esteps s s'.
  Proof. induction 1; [apply rt_step; now constructor|apply rt_refl|eapply rt_trans; eauto]. Qed.
  Lemma esteps_ind_inv (I : st -> Prop) : (forall s s', estep s s' -> I s -> I s') -> forall s s', esteps s s' -> I s -> I s'.
  Proof. intros H s s' HS. induction HS; eauto. Qed.

  Notation opre := (opre G W).
  Lemma estep_opre s s' : estep s s' -> opre s -> opre s'.
  Proof.
    intros H [[HE HW] HU]; destruct H; try (split; [split|]; assumption).
    - assert (pre G W s') by (eapply step_pre; eauto; split; assumption). split; [assumption|]. erewrite step_unsent by eauto. assumption.
    - split; [split; assumption|]. sproj. rewrite H in HU. now inversion HU.
    - split; [split; [assumption|]|assumption]. sproj. apply Forall_app. auto.
    - split; [split; [|assumption]|assumption]. intros d src q Hin. apply (HE d src q). unfold tx_state in Hin. destruct (tx_ok s); exact Hin.
  Qed.
  Lemma esteps_opre s s' : esteps s s' -> opre s -> opre s'.
  Proof. apply esteps_ind_inv. exact estep_opre. Qed.

  Definition eop {A} (s0 : st) (o : outcome A) (s : st) : Prop :=
    match o with Fail (Panic _) => True | _ => esteps s0 s end.
  Lemma eop_bind {A B} s0 (m : M A) (g : A -> M B) s :
    wp m (eop s0) s -> (forall a s', esteps s0 s' -> wp (g a) (eop s0) s') -> wp (bind m g) (eop s0) s.
  Proof.
    intros H HK. apply wp_bind. eapply wp_conseq; [exact H|]. intros [a|e] s' HH; cbn in *; [apply HK; auto|destruct e; auto].
  Qed.
  Lemma eop_call {A} s0 (m : M A) (V : A -> st -> Prop) s :
    rspec G W m V -> opre s0 -> esteps s0 s -> wp m (eop s0) s.
  Proof.
    intros HR HP HS. destruct (esteps_opre _ _ HS HP) as [HP' _]. eapply wp_conseq; [apply HR, HP'|].
    intros [a|[]] s' HH; cbn in *; auto; try (destruct HH as [HH _]); (eapply esteps_trans; [exact HS|now apply steps_esteps]).
  Qed.
  Lemma eop_loop {S A} s0 fuel (body : S -> M (S + A)) x s :
    esteps s0 s -> (forall y t, esteps s0 t -> wp (body y) (eop s0) t) -> wp (loop fuel body x) (eop s0) s.
  Proof.
    intros HS HB. apply (wp_loop (fun y t => esteps s0 t)); [auto|intros y t H; exact H|].
    intros y t HT. eapply wp_conseq; [apply HB; eassumption|]. intros [[y'|a]|[]] t' H; cbn in *; auto.
  Qed.

  Lemma recv_from_esteps n s : opre s -> wp (recv_from n) (eop s) s.
  Proof.
    intros HP. unfold recv_from.
    eapply eop_bind; [eapply eop_call; [apply flush_incoming_steps|exact HP|apply esteps_refl]|].
    intros d s1 HS1. do 2 wstep. destruct (negb _); [wstep; exact HS1|]. destruct (sstate_eqb _ _); [wstep; exact HS1|].
    do 2 wstep. apply eop_loop; [exact HS1|]. intros _ t HT. do 2 wstep.
    destruct (sstate_eqb _ _); [wstep; exact HT|].
    eapply eop_bind; [eapply eop_call; [apply recv_steps; assumption|exact HP|exact HT]|]. intros x s2 HS2.
    destruct (is_nil _); wstep; exact HS2.
  Qed.
  Lemma send_esteps s : opre s -> wp send (eop s) s.
  Proof.
    intros HP. unfold send. do 2 wstep. apply eop_loop; [apply esteps_refl|].
    intros _ t HT. do 2 wstep. destruct (s_unsent_queue (sk t)) as [|p rest] eqn:EU; [wstep; exact HT|].
    do 2 wstep. assert (HT2 : esteps s (mkSt (ss_unsent_queue rest (sk t)) (wd t))) by (eapply esteps_snoc; [exact HT|eapply es_pop; exact EU]).
    assert (Wp : W p). { destruct (esteps_opre _ _ HT HP) as [_ HU]. rewrite EU in HU. now inversion HU. }
    apply wp_bind. destruct (esteps_opre _ _ HT2 HP) as [HP2 _].
    eapply wp_conseq; [apply (send_packet_steps G W); auto; apply recv_steps; assumption|].
    intros [q|[]] s2 HH; cbn in *; auto; try (eapply esteps_trans; [exact HT2|now apply steps_esteps]).
    destruct HH as [HS2 Wq]. assert (HS3 : esteps s s2) by (eapply esteps_trans; [exact HT2|now apply steps_esteps]).
    do 2 wstep. wstep; wstep; [intros; exact I|intros _]. do 2 wstep. sproj. wstep.
    eapply esteps_snoc; [exact HS3|]. now apply es_push.
  Qed.
  Lemma flush_esteps s0 s : opre s0 -> esteps s0 s -> wp flush (eop s0) s.
  Proof.
    intros HP HS. unfold flush. do 2 wstep. apply eop_loop; [exact HS|].
    intros _ t HT. do 2 wstep. destruct (is_nil _); [wstep; exact HT|].
    eapply eop_bind; [eapply eop_call; [apply recv_steps; assumption|exact HP|exact HT]|]. intros x s2 HS2. wstep. exact HS2.
  Qed.
  Lemma close_esteps s : f = true -> opre s -> wp close (eop s) s.
  Proof.
    intros HF HP. unfold close. do 2 wstep.
    assert (HR : wp (ret tt) (eop s) s) by (wstep; apply esteps_refl).
    assert (HC : wp (flush ;;; send_fin ;;; upd_sk (ss_state FinSent) ;;;
      fuel <- event_fuel ;; loop fuel (fun _ : unit => s <- get_sk ;;
        if sstate_eqb (s_state s) Closed then ret (inr tt) else recv BUF_SIZE ;;; ret (inl tt)) tt) (eop s) s).
    { eapply eop_bind; [apply flush_esteps; [exact HP|apply esteps_refl]|]. intros _ s1 HS1. unfold send_fin. do 5 wstep.
      rewrite packet_new_wire, set_cid_wire, set_seq_wire, set_ack_wire, set_ts_wire, set_type_wire.
      cbn [h_type h_cid h_ts h_tsd h_wnd h_seq h_ack].
      assert (HS2 : esteps s (ticked s1)) by (eapply esteps_snoc; [exact HS1|apply es_step, st_tick]).
      match goal with |- wp _ _ ?X => assert (HSx : esteps s (tx_state (s_connected_to (sk s1)) (wire (mkHdr PFin (s_sender_connection_id (sk s1)) (clock_now s1) 0 0 (s_seq_nr (sk s1)) (s_ack_nr (sk s1))) [] []) X)) end.
      { eapply esteps_snoc; [exact HS2|]. apply (es_fin (ticked s1)); auto. apply micros_range. }
      apply wp_bind, wp_udp_send.
      - intros _. cbv beta iota. cbn [try_]. wstep. do 2 wstep. sproj.
        match goal with |- wp _ _ ?X => assert (HS3 : esteps s X) end.
        { eapply esteps_snoc; [exact HSx|]. now apply es_finsent. }
        do 2 wstep. apply eop_loop; [exact HS3|]. intros _ t HT. do 2 wstep.
        destruct (sstate_eqb _ _); [wstep; exact HT|].
        eapply eop_bind; [eapply eop_call; [apply recv_steps; assumption|exact HP|exact HT]|]. intros x s4 HS4. wstep. exact HS4.
      - intros k _. cbv beta iota. cbn [try_]. wstep. exact HSx.
      - intros _. exact HSx. }
    destruct (s_state (sk s)) eqn:ES; first [exact HR|exact HC].
  Qed.

  (** What the steps keep, and what they add to the log. *)
  Definition stays (Q cid : Z) (s : st) : Prop := open_state (s_state (sk s)) /\ s_seq_nr (sk s) = Q /\ s_sender_connection_id (sk s) = cid.
  Definition quiet_fin (s : st) : Prop := s_state (sk s) <> FinSent.
  Definition emitted (Q cid : Z) (fin : Prop) (p : packet) : Prop :=
    W p \/ get_type p = Some PState \/ get_type p = Some PReset \/ (fin /\ get_type p = Some PFin /\ seq_nr p = u16 Q /\ connection_id p = u16 cid).
  Lemma emits_emitted Q cid s dest p : stays Q cid s -> emits G W (sk s) dest p -> emitted Q cid (s_state (sk s) = FinSent) p.
  Proof.
    intros (_ & <- & <-) H. unfold emitted. destruct H as [orig src t ts tsd exts _ HT _ _ HE _|ts _ HF|ts _ _ _|p Hp]; rewrite ?get_type_wire, ?seq_wire, ?cid_wire; cbn [h_type h_seq h_cid]; auto.
    - destruct HT as [->|[->|[-> HF]]]; auto 10.
    - auto 10.
  Qed.
  Lemma emitted_fin Q cid (A B : Prop) p : (A -> B) -> emitted Q cid A p -> emitted Q cid B p.
  Proof. unfold emitted. tauto. Qed.
  Lemma skstep_stays Q cid s k : skstep G (sk s) k -> stays Q cid s -> stays Q cid (mkSt k (wd s)).
  Proof.
    intros H (HO & HQ & HC). split; [now apply (skstep_open G (sk s) k)|]. destruct HO as [H1 H2]. sproj.
    destruct H; sproj; autorewrite with frame; auto; congruence.
  Qed.
  Lemma skstep_quiet s k : skstep G (sk s) k -> quiet_fin s -> quiet_fin (mkSt k (wd s)).
  Proof. unfold quiet_fin. intros H HQ. destruct H; sproj; autorewrite with frame; auto; congruence. Qed.
  Lemma tx_state_log dest p s : exists xs, w_sent (wd (tx_state dest p s)) = w_sent (wd s) ++ xs /\ (xs = [] \/ xs = [(dest, p)]).
  Proof. unfold tx_state. destruct (tx_ok s); eexists; [split; [reflexivity|auto]|]. rewrite app_nil_r. auto. Qed.
  Lemma estep_log Q cid s s' : estep s s' -> stays Q cid s -> (f = false -> quiet_fin s) ->
    stays Q cid s' /\ (f = false -> quiet_fin s') /\ exists xs, w_sent (wd s') = w_sent (wd s) ++ xs /\ Forall (fun x => emitted Q cid (f = true) (snd x)) xs.
  Proof.
    intros H HS HF.
    assert (H0 : forall t, w_sent (wd t) = w_sent (wd s) -> exists xs, w_sent (wd t) = w_sent (wd s) ++ xs /\ Forall (fun x => emitted Q cid (f = true) (snd x)) xs).
    { intros t E. exists []. rewrite app_nil_r. auto. }
    assert (HX : forall dest p, emitted Q cid (f = true) p -> stays Q cid (tx_state dest p s) /\ (f = false -> quiet_fin (tx_state dest p s)) /\
      exists xs, w_sent (wd (tx_state dest p s)) = w_sent (wd s) ++ xs /\ Forall (fun x => emitted Q cid (f = true) (snd x)) xs).
    { intros dest p He. destruct (tx_state_log dest p s) as (xs & E & HX).
      assert (EK : sk (tx_state dest p s) = sk s) by (unfold tx_state; destruct (tx_ok s); reflexivity).
      split; [unfold stays; now rewrite EK|]. split; [unfold quiet_fin; now rewrite EK|]. exists xs. split; [exact E|].
      destruct HX as [->| ->]; [constructor|]. constructor; [exact He|constructor]. }
    destruct H as [s s' H|s p rest H|s p Hp|s ts HT Hts|s HT|s n]; try (split; [exact HS|split; [exact HF|now apply H0]]).
    - destruct H as [s k H|s|s|s ev rest H|s dest p H]; try (split; [exact HS|split; [exact HF|now apply H0]]).
      + split; [now apply skstep_stays|]. split; [intros Hf; apply skstep_quiet; auto|]. now apply H0.
      + apply HX. eapply emitted_fin; [|now apply (emits_emitted Q cid s dest)]. intros E. destruct f; [reflexivity|]. now destruct (HF eq_refl).
    - apply HX. destruct HS as (_ & <- & <-). right. right. right. rewrite get_type_wire, seq_wire, cid_wire. auto.
    - split; [destruct HS as (_ & H2 & H3); split; [split; discriminate|auto]|]. split; [congruence|]. now apply H0.
  Qed.
  Lemma esteps_log Q cid s s' : esteps s s' -> stays Q cid s -> (f = false -> quiet_fin s) ->
    stays Q cid s' /\ (f = false -> quiet_fin s') /\ exists xs, w_sent (wd s') = w_sent (wd s) ++ xs /\ Forall (fun x => emitted Q cid (f = true) (snd x)) xs.
  Proof.
    induction 1 as [s s' H|s|s s1 s2 H1 IH1 H2 IH2]; intros HS HF.
    - now apply estep_log.
    - split; [exact HS|]. split; [exact HF|]. exists []. rewrite app_nil_r. auto.
    - destruct (IH1 HS HF) as (HS1 & HF1 & xs1 & E1 & X1). destruct (IH2 HS1 HF1) as (HS2 & HF2 & xs2 & E2 & X2).
      split; [exact HS2|]. split; [exact HF2|]. exists (xs1 ++ xs2). rewrite E2, E1, app_assoc. split; [reflexivity|]. apply Forall_app; auto.
  Qed.
  Lemma eop_run {A} s o (s' : st) : @eop A s o s' -> not_panic o -> esteps s s'.
  Proof. intros H HN. destruct o as [|[k|l| |]]; cbn in H; auto. now destruct (HN l). Qed.
End Esteps.

(** ** Histories *)
(** The bytes a call hands over for sending: [send_to] takes them unless the socket is closed. *)
Definition taken (o : op) (s : st) : list byte :=
  match o, s_state (sk s) with OSendTo d, Closed => [] | OSendTo d, _ => d | _, _ => [] end.
Fixpoint stream_sent (ops : list op) (s : st) : list byte :=
  match ops with [] => [] | o :: rest => taken o s ++ stream_sent rest (snd (run_op o s)) end.
Fixpoint cut (ops : list op) (s : st) : list (list byte) :=
  match ops with [] => [] | o :: rest => chunks 1380 (taken o s) ++ cut rest (snd (run_op o s)) end.
Lemma cut_concat ops : forall s, concat (cut ops s) = stream_sent ops s.
Proof. induction ops as [|o ops IH]; intros s; cbn [cut stream_sent]; [reflexivity|]. rewrite concat_app, IH, chunks_concat by lia. reflexivity. Qed.
Lemma cut_sizes ops : forall s c, In c (cut ops s) -> (1 <= length c <= 1380)%nat.
Proof.
  induction ops as [|o ops IH]; intros s c; cbn [cut]; [contradiction|]. intros H. apply in_app_or in H as [H|H]; [|eauto]. apply chunks_sizes in H; lia.
Qed.

(** [p] is the data packet at position [j] of the chunks [cs]; numbers start at [q]. *)
Definition Wc (q cid : Z) (cs : list (list byte)) (p : packet) : Prop := exists j c h,
  nth_error cs j = Some c /\ p = wire h [] c /\ h_type h = PData /\ u16 (h_seq h) = u16 (q + Z.of_nat j) /\ u16 (h_cid h) = u16 cid.
Lemma Wc_ts q cid cs p t : Wc q cid cs p -> Wc q cid cs (set_timestamp t p).
Proof. intros (j & c & h & H1 & -> & H2 & H3 & H4). rewrite set_ts_wire. eexists j, c, _. split; [exact H1|]. split; [reflexivity|]. auto. Qed.
Lemma Wc_tsd q cid cs p t : Wc q cid cs p -> Wc q cid cs (set_timestamp_difference t p).
Proof. intros (j & c & h & H1 & -> & H2 & H3 & H4). rewrite set_tsd_wire. eexists j, c, _. split; [exact H1|]. split; [reflexivity|]. auto. Qed.
Lemma Wc_says q cid cs p : Wc q cid cs p -> exists j c, nth_error cs j = Some c /\ packet_try_from p = Some (Ok p) /\ get_type p = Some PData /\ payload p = Some c /\
  seq_nr p = (q + Z.of_nat j) mod 65536 /\ connection_id p = cid mod 65536.
Proof.
  intros (j & c & h & H1 & -> & H2 & H3 & H4). exists j, c. rewrite get_type_wire, payload_wire, seq_wire, cid_wire, H2, H3, H4, !u16_eq by constructor.
  split; [exact H1|]. split; [apply wire_valid; constructor|]. auto.
Qed.
Lemma queue_ok_Wc q cid l1 l2 : forall cs k, s_seq_nr k = u16 (q + Z.of_nat (length l1)) -> s_sender_connection_id k = cid -> queue_ok (Wc q cid (l1 ++ cs ++ l2)) cs k.
Proof.
  intros cs. revert l1. induction cs as [|c cs IH]; intros l1 k HQ HC; cbn [queue_ok]; [exact I|]. split.
  - rewrite chunk_packet_wire. exists (length l1), c. eexists. split; [rewrite nth_error_app2, Nat.sub_diag by lia; reflexivity|]. split; [reflexivity|]. cbn [h_type h_seq h_cid].
    rewrite HQ, HC. split; [reflexivity|]. split; [|reflexivity]. rewrite !u16_eq. apply Z.mod_mod. lia.
  - specialize (IH (l1 ++ [c]) (queue_chunk c k)). rewrite <- app_assoc in IH. apply IH; unfold queue_chunk; sproj; [|exact HC].
    rewrite app_length. cbn [length]. rewrite HQ, !u16_eq. rewrite Zplus_mod_idemp_l. f_equal. lia.
Qed.
Lemma queue_seq cs : forall k, s_seq_nr (fold_left (fun k c => queue_chunk c k) cs k) = match cs with [] => s_seq_nr k | _ => u16 (s_seq_nr k + Z.of_nat (length cs)) end /\
  s_state (fold_left (fun k c => queue_chunk c k) cs k) = s_state k /\ s_sender_connection_id (fold_left (fun k c => queue_chunk c k) cs k) = s_sender_connection_id k.
Proof.
  induction cs as [|c cs IH]; intros k; cbn [fold_left]; [auto|]. destruct (IH (queue_chunk c k)) as (H1 & H2 & H3). rewrite H1, H2, H3. unfold queue_chunk; sproj. split; [|auto].
  destruct cs as [|c' cs]; cbn [length]; rewrite !u16_eq; [f_equal|rewrite Zplus_mod_idemp_l; f_equal]; lia.
Qed.
Lemma queue_wins W cs : forall k, Forall W (s_unsent_queue k) -> queue_ok W cs k -> Forall W (s_unsent_queue (fold_left (fun k c => queue_chunk c k) cs k)) /\
  s_send_window (fold_left (fun k c => queue_chunk c k) cs k) = s_send_window k.
Proof.
  induction cs as [|c cs IH]; intros k HU HQ; cbn [fold_left queue_ok] in *; [auto|]. destruct HQ as [H1 H2].
  destruct (IH (queue_chunk c k)) as [H3 H4]; [unfold queue_chunk; sproj; apply Forall_app; auto|exact H2|]. split; [exact H3|]. rewrite H4. reflexivity.
Qed.

Section History.
  Variables (q cid : Z) (total : list (list byte)).
  Notation W := (Wc q cid total).
  Notation "'WT'" := (Wc_ts q cid total).
  Notation "'WD'" := (Wc_tsd q cid total).

  (** One call. *)
  Lemma op_log f o s v s' pre post : (o = OClose -> f = true) -> total = pre ++ chunks 1380 (taken o s) ++ post ->
    stays (u16 (q + Z.of_nat (length pre))) cid s -> opre G0 W s -> (f = false -> quiet_fin s) -> run_op o s = (v, s') -> not_panic v ->
    stays (u16 (q + Z.of_nat (length (pre ++ chunks 1380 (taken o s))))) cid s' /\ opre G0 W s' /\ (f = false -> quiet_fin s') /\
    exists xs, w_sent (wd s') = w_sent (wd s) ++ xs /\ Forall (fun x => emitted W (u16 (q + Z.of_nat (length (pre ++ chunks 1380 (taken o s))))) cid (f = true) (snd x)) xs.
  Proof.
    intros HC HT HS HP HF HR HN.
    assert (HG : chunks 1380 (taken o s) = [] -> wp (run_op o) (eop f G0 W s) s -> stays (u16 (q + Z.of_nat (length (pre ++ chunks 1380 (taken o s))))) cid s' /\ opre G0 W s' /\ (f = false -> quiet_fin s') /\
      exists xs, w_sent (wd s') = w_sent (wd s) ++ xs /\ Forall (fun x => emitted W (u16 (q + Z.of_nat (length (pre ++ chunks 1380 (taken o s))))) cid (f = true) (snd x)) xs).
    { intros -> HW. rewrite app_nil_r. unfold wp in HW. rewrite HR in HW. cbn [fst snd] in HW. apply eop_run in HW; [|exact HN].
      destruct (esteps_log _ _ _ _ _ _ _ HW HS HF) as (H1 & H2 & H3). split; [exact H1|]. split; [|auto]. eapply esteps_opre; eauto using Wc_ts. }
    destruct o as [n|d| | |n|].
    - apply HG; [unfold taken; destruct (s_state (sk s)); reflexivity|]. cbn [run_op]. eapply eop_bind; [apply recv_from_esteps; eauto using G0_valid, Wc_ts, Wc_tsd|]. intros; wstep; assumption.
    - cbn [run_op] in HR. destruct (sstate_eqb (s_state (sk s)) Closed) eqn:EC.
      + apply HG; [unfold taken; destruct (s_state (sk s)); try discriminate; reflexivity|]. cbn [run_op]. unfold send_to. wstep. do 2 wstep. rewrite EC. wstep. apply esteps_refl.
      + assert (ET : taken (OSendTo d) s = d) by (unfold taken; destruct (s_state (sk s)); try discriminate; reflexivity). rewrite ET in *.
        set (s1 := mkSt (fold_left (fun k c => queue_chunk c k) (chunks 1380 d) (sk s)) (wd s)).
        destruct HS as (HO & HQ & HI). destruct HP as [[HE HW] HU].
        assert (HK : queue_ok W (chunks 1380 d) (sk s)) by (rewrite HT; apply queue_ok_Wc; auto).
        destruct (queue_wins W _ _ HU HK) as [HU1 HW1]. destruct (queue_seq (chunks 1380 d) (sk s)) as (Q1 & Q2 & Q3).
        assert (HP1 : opre G0 W s1) by (split; [split; [exact HE|]|]; cbn [s1 sk]; [rewrite HW1|]; assumption).
        assert (HS1 : stays (u16 (q + Z.of_nat (length (pre ++ chunks 1380 d)))) cid s1).
        { split; cbn [s1 sk]; [now rewrite Q2|]. rewrite Q1, Q3. split; [|exact HI]. rewrite app_length. destruct (chunks 1380 d) as [|c cs]; [cbn [length]; rewrite Nat.add_0_r; exact HQ|].
          rewrite HQ, !u16_eq, Zplus_mod_idemp_l. f_equal. lia. }
        assert (HF1 : f = false -> quiet_fin s1) by (intros Hf; unfold quiet_fin; cbn [s1 sk]; rewrite Q2; exact (HF Hf)).
        assert (HWP : wp (send_to d) (eop f G0 W s1) s).
        { unfold send_to. do 2 wstep. rewrite EC. do 2 wstep. change CHUNK with 1380%nat. fold s1. eapply eop_bind; [apply send_esteps; eauto using G0_valid, Wc_ts, Wc_tsd|]. intros; wstep; assumption. }
        assert (HWO : wp (x <- send_to d ;; ret (VLen x)) (eop f G0 W s1) s) by (eapply eop_bind; [exact HWP|intros; wstep; assumption]).
        unfold wp in HWO. change (run_op (OSendTo d)) with (x <- send_to d ;; ret (VLen x)) in HR. rewrite HR in HWO. cbn [fst snd] in HWO. apply eop_run in HWO; [|exact HN].
        destruct (esteps_log _ _ _ _ _ _ _ HWO HS1 HF1) as (H1 & H2 & xs & H3). split; [exact H1|]. split; [eapply esteps_opre; eauto using Wc_ts|]. split; [exact H2|]. exists xs. exact H3.
    - apply HG; [unfold taken; destruct (s_state (sk s)); reflexivity|]. cbn [run_op]. eapply eop_bind; [apply flush_esteps; eauto using G0_valid, Wc_ts, Wc_tsd, esteps_refl|]. intros; wstep; assumption.
    - apply HG; [unfold taken; destruct (s_state (sk s)); reflexivity|]. cbn [run_op]. eapply eop_bind; [apply close_esteps; eauto using G0_valid, Wc_ts, Wc_tsd|]. intros; wstep; assumption.
    - apply HG; [unfold taken; destruct (s_state (sk s)); reflexivity|]. cbn [run_op]. do 2 wstep. wstep. apply rt_step, es_retries.
    - apply HG; [unfold taken; destruct (s_state (sk s)); reflexivity|]. cbn [run_op]. unfold peer_addr. do 3 wstep. destruct (_ || _); wstep; [wstep; apply esteps_refl|apply esteps_refl].
  Qed.

  (** A history whose calls may close the socket ([f]) or do not. *)
  Lemma ops_log f ops : (f = true \/ ~ In OClose ops) -> forall s pre post, total = pre ++ cut ops s ++ post ->
    stays (u16 (q + Z.of_nat (length pre))) cid s -> opre G0 W s -> (f = false -> quiet_fin s) -> existsb panicked (fst (run_ops ops s)) = false ->
    let s' := snd (run_ops ops s) in
    stays (u16 (q + Z.of_nat (length (pre ++ cut ops s)))) cid s' /\ opre G0 W s' /\ (f = false -> quiet_fin s') /\
    exists xs, w_sent (wd s') = w_sent (wd s) ++ xs /\
      Forall (fun x => exists m, (m <= length (cut ops s))%nat /\ emitted W (u16 (q + Z.of_nat (length pre + m))) cid (f = true) (snd x)) xs.
  Proof.
    induction ops as [|o ops IH]; intros HC s pre post HT HS HP HF HN; cbn [run_ops cut] in *.
    - cbn [snd]. rewrite app_nil_r. split; [exact HS|]. split; [exact HP|]. split; [exact HF|]. exists []. rewrite app_nil_r. auto.
    - assert (HCo : o = OClose -> f = true) by (intros ->; destruct HC as [HC|HC]; [exact HC|]; destruct HC; now left).
      assert (HCr : f = true \/ ~ In OClose ops) by (destruct HC as [HC|HC]; [auto|right; intros H; apply HC; now right]).
      rewrite <- app_assoc in HT. destruct (run_op o s) as [v s1] eqn:E.
      assert (HV : not_panic v). { intros l ->. cbn in HN. discriminate. }
      destruct (op_log f o s v s1 pre (cut ops s1 ++ post) HCo HT HS HP HF E HV) as (HS1 & HP1 & HF1 & xs1 & E1 & X1).
      cbn [snd] in *. rewrite app_assoc in HT.
      assert (HB : exists rs, (match v with Fail (Panic l) => ([Fail (Panic l)], s1) | _ => let (rs, s'') := run_ops ops s1 in (v :: rs, s'') end) = (v :: rs, snd (run_ops ops s1)) /\ rs = fst (run_ops ops s1)).
      { destruct (run_ops ops s1) as [rs s2]. exists rs. split; [|reflexivity]. destruct v as [|[k|l| |]]; try reflexivity. now destruct (HV l). }
      destruct HB as (rs & HB & ->). rewrite HB in *. cbn [fst snd existsb] in HN |- *. apply orb_false_elim in HN as [_ HN].
      destruct (IH HCr s1 _ _ HT HS1 HP1 HF1 HN) as (HS2 & HP2 & HF2 & xs2 & E2 & X2).
      rewrite app_assoc. split; [exact HS2|]. split; [exact HP2|]. split; [exact HF2|]. exists (xs1 ++ xs2). split; [rewrite E2, E1, app_assoc; reflexivity|]. apply Forall_app. split.
      + eapply Forall_impl; [|exact X1]. intros x Hx. exists (length (chunks 1380 (taken o s))). rewrite !app_length in *. split; [lia|exact Hx].
      + eapply Forall_impl; [|exact X2]. intros x (m & Hm & Hx). exists (length (chunks 1380 (taken o s)) + m)%nat. rewrite !app_length in *. split; [lia|].
        replace (length pre + (length (chunks 1380 (taken o s)) + m))%nat with (length pre + length (chunks 1380 (taken o s)) + m)%nat by lia. exact Hx.
  Qed.
End History.

(** ** The handshake *)
Lemma steps_empty G W s s' : steps G W s s' -> s_send_window (sk s) = [] -> s_send_window (sk s') = [].
Proof.
  apply (steps_ind_inv G W (fun s => s_send_window (sk s) = [])). intros t t' H HE. destruct H as [t k H| | | |t dest p H]; auto.
  destruct H; sproj; autorewrite with frame; auto; try congruence. rewrite HE. destruct (pos + 1)%nat; reflexivity.
Qed.
Lemma handled_empty p src s r s' : valid p -> wins_ok (sk s) -> handle_packet recv p src s = (Ret r, s') ->
  (s_send_window (sk s) = [] -> s_send_window (sk s') = []) /\ s_unsent_queue (sk s') = s_unsent_queue (sk s).
Proof.
  intros HV HW H. pose proof (handle_packet_steps G0 W0 G0_valid W0_ts W0_tsd recv (fun n => recv_steps G0 W0 G0_valid W0_ts W0_tsd n) p src HV s) as HP.
  assert (HO : opre G0 W0 s) by now apply opre0. specialize (HP (proj1 HO)). unfold wp in HP. rewrite H in HP. cbn in HP. destruct HP as [HP _].
  split; [now apply (steps_empty G0 W0)|now apply (steps_unsent G0 W0)].
Qed.
Lemma synsent_connected rec p src s o s' : s_state (sk s) = SynSent -> get_type p = Some PState -> handle_packet rec p src s = (Ret o, s') ->
  s_seq_nr (sk s') = u16 (s_seq_nr (sk s) + 1) /\ s_sender_connection_id (sk s') = s_sender_connection_id (sk s).
Proof.
  intros HS HT. rewrite (handle_own rec p src PState s HT) by auto.
  assert (EN : s_state (sk (noted p s)) = SynSent) by (unfold noted; sproj; rewrite (acked_other s_state) by reflexivity; exact HS).
  unfold dispatch, bind at 1, get_sk at 1. rewrite EN. unfold bind at 1, upd_sk at 1. unfold bind at 1, ck_u16, arith.
  match goal with |- context [if ?b then _ else _] => destruct b eqn:E end; [discriminate|]. intros [= <- <-]. sproj. unfold noted. sproj.
  now rewrite !acked_other.
Qed.

(** A client that has just connected: nothing queued, its next number is 2. *)
Definition client_ready (cid : Z) (s : st) : Prop :=
  s_state (sk s) = Connected /\ s_seq_nr (sk s) = 2 /\ s_sender_connection_id (sk s) = cid + 1 /\ s_send_window (sk s) = [] /\ s_unsent_queue (sk s) = [].
Lemma connect_ready a l s0 s : w_sent (wd s0) = [] -> connect (Ok (a :: l)) (Ok tt) s0 = (Ret tt, s) -> s_state (sk s) = Connected ->
  exists cid, 0 <= cid < 65535 /\ syns_to a cid 1 (w_sent (wd s)) /\ client_ready cid s.
Proof.
  intros H0 H HC. unfold connect, take_address in H. unfold bind at 1, ret at 1 in H. unfold bind at 1 in H.
  unfold bind_socket, take_address, try_, from_raw_parts in H. unfold bind at 1, ret at 1 in H. unfold bind at 1, ret at 1 in H. unfold bind at 1 in H. rewrite random_u16_eq in H.
  unfold upd_sk at 1 in H. unfold bind at 1, upd_sk at 1 in H. unfold bind at 1, get_sk at 1 in H. unfold bind at 1 in H. rewrite syn_packet_wire in H.
  cbn [sk wd] in H. set (t := mkSt (ss_connected_to a _) _) in H.
  remember (s_receiver_connection_id (sk t)) as cid eqn:ER; symmetry in ER. assert (ES : s_seq_nr (sk t) = 1) by reflexivity.
  change (s_receiver_connection_id (ss_connected_to a _)) with (s_receiver_connection_id (sk t)) in H. change (s_seq_nr (ss_connected_to a _)) with (s_seq_nr (sk t)) in H. rewrite ER, ES in H.
  assert (EL : w_sent (wd t) = []) by exact H0. assert (EC : s_connected_to (sk t) = a) by reflexivity.
  assert (EW : s_send_window (sk t) = [] /\ s_unsent_queue (sk t) = []) by (split; reflexivity).
  assert (EI : 0 <= cid < 65535 /\ s_sender_connection_id (sk t) = cid + 1).
  { rewrite <- ER. cbn [t sk ss_connected_to fresh_socket s_receiver_connection_id s_sender_connection_id]. unfold next_random, sequential_identifiers. change (2 ^ 16) with 65536.
    pose proof (Z.mod_pos_bound (w_rand (wd s0) (w_rtick (wd s0))) 65536 ltac:(lia)). destruct (_ <? _) eqn:E; cbn [fst snd]; lia. }
  clearbody t. destruct (syn_loop MAX_SYN_RETRIES _ t) as [o1 s1] eqn:E1.
  pose proof (syn_loop_sk MAX_SYN_RETRIES (wire (mkHdr PSyn cid 0 0 0 1 0) [] []) t ltac:(rewrite wire_length; cbn; lia) ltac:(unfold MAX_SYN_RETRIES; lia)) as HSK.
  unfold wp in HSK. rewrite E1 in HSK. cbn [fst snd] in HSK.
  apply syn_loop_all in E1 as (syns & HL & HF & _ & _ & HO). rewrite EL in HL. rewrite EC in HF. cbn [app] in HL.
  destruct o1 as [b|e]; [|discriminate].
  destruct HSK as [[src HSK] _]. unfold bind at 1, get_sk at 1 in H. unfold bind at 1 in H.
  destruct (parse_total b) as [[p|e] EP]; rewrite EP in H; cbn [unwrap] in H; unfold ret at 1 in H; [|discriminate].
  destruct (parse_inv _ _ EP) as [-> _]. destruct HO as [HS HB]. specialize (HS (or_introl (Nat.lt_0_succ 4))).
  destruct (synsent_handle recv b (s_connected_to (sk s1)) s1 EP HS) as (o2 & s2 & E2 & L2 & HH).
  unfold bind at 1 in H. rewrite E2 in H. destruct o2 as [r|e]; [|discriminate]. unfold ret in H. assert (E3 : s2 = s) by congruence. subst s2.
  exists cid. split; [apply EI|]. rewrite L2, HL. split; [exact HF|].
  destruct HH as [(HT & _)|(_ & HH)]; [|congruence]. destruct (synsent_connected _ _ _ _ _ _ HS HT E2) as [Q1 Q2].
  assert (HW : wins_ok (sk s1)) by (rewrite HSK; split; sproj; destruct EW as [EW1 EW2]; rewrite ?EW1, ?EW2; constructor).
  destruct (handled_empty _ _ _ _ _ EP HW E2) as [W1 W2]. rewrite HSK in *. sproj_in Q1. sproj_in Q2. sproj_in W1. sproj_in W2.
  split; [exact HC|]. rewrite Q1, Q2, W2, ES. split; [reflexivity|]. split; [apply EI|]. split; [apply W1, EW|apply EW].
Qed.

(** A server that has just accepted the SYN [p]. *)
Lemma accept_reader data src p la s a s' : packet_try_from (firstn 1500 data) = Some (Ok p) -> connection_id p < 65535 ->
  accept (RxDgram data src) (Ok la) (Ok tt) s = (Ret a, s') ->
  reader_at (seq_nr p) s' /\ s_sender_connection_id (sk s') = connection_id p /\ s_receiver_connection_id (sk s') = connection_id p + 1.
Proof.
  intros HP HC H. unfold accept, bind at 1 in H. change BUF_SIZE with 1500%nat in H. rewrite HP in H. cbn [unwrap] in H. unfold ret at 1 in H. unfold bind at 1, m_get_type in H.
  destruct (get_type p) as [ty|] eqn:HT; [|discriminate]. cbn [unwrap] in H. unfold ret at 1 in H. destruct (negb (ptype_eqb ty PSyn)) eqn:ET; [discriminate|].
  assert (HT' : get_type p = Some PSyn) by (rewrite HT; destruct ty; try discriminate; reflexivity).
  cbn [try_] in H. unfold bind at 1, ret at 1 in H. unfold bind at 1, ret at 1 in H. unfold bind at 1, from_raw_parts, bind at 1, random_u16, upd_sk at 1 in H.
  match type of H with context [handle_packet recv p src ?t] => set (s1 := t) in *; destruct (syn_new recv p src s1) as (r & s2 & E & HO & _ & _ & _ & _ & _ & _ & B & P & _) end; auto; [intros _; exact HC|].
  assert (HV : valid p) by (destruct (parse_inv _ _ HP) as [-> _]; exact HP).
  assert (HW : wins_ok (sk s1)) by (split; constructor). destruct (handled_empty _ _ _ _ _ HV HW E) as [W1 _]. specialize (W1 eq_refl).
  rewrite E in H. cbv beta iota in H. unfold bind, udp_send in H.
  assert (ES : sk s' = sk s2). { destruct (w_send _ _); cbn in H; try discriminate; injection H as _ <-; reflexivity. }
  destruct HO as (_ & H1 & H2 & H3 & H4 & H5 & _). pose proof (cid_range p). unfold reader_at. rewrite ES, B, P, W1, H3, Z.mod_small by lia. auto 10.
Qed.
