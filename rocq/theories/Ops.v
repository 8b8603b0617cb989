(** Steps of the public operations, on top of the steps of the receive path; reachable states. *)
From Verif Require Export StepProofs.
Require Import ZifyBool ZifyNat ZifyN.
Local Open Scope Z_scope.
Ltac Zify.zify_post_hook ::= Z.div_mod_to_equations.

Definition open_state (x : sstate) : Prop := x <> New /\ x <> SynSent.

Section Ops.
  Variable G : packet -> addr -> Prop.
  Variable W : packet -> Prop.
  Hypothesis G_valid : forall p src, G p src -> valid p.
  Hypothesis W_ts : forall p t, W p -> W (set_timestamp t p).
  Hypothesis W_tsd : forall p t, W p -> W (set_timestamp_difference t p).

  Inductive ostep : st -> st -> Prop :=
  | os_step s s' : step G W s s' -> ostep s s'
  | os_queue s c : W (chunk_packet (sk s) c) -> ostep s (mkSt (queue_chunk c (sk s)) (wd s))
  | os_pop s p rest : s_unsent_queue (sk s) = p :: rest -> ostep s (mkSt (ss_unsent_queue rest (sk s)) (wd s))
  | os_push s p : W p ->
      ostep s (mkSt (ss_send_window (s_send_window (sk s) ++ [p]) (ss_curr_window (u32 (s_curr_window (sk s) + u32 (packet_len p))) (sk s))) (wd s))
  | os_fin s ts : 0 <= ts < 2 ^ 32 -> s_send_window (sk s) = [] -> open_state (s_state (sk s)) ->
      ostep s (tx_state (s_connected_to (sk s))
        (wire (mkHdr PFin (s_sender_connection_id (sk s)) ts 0 0 (s_seq_nr (sk s)) (s_ack_nr (sk s))) [] []) s)
  | os_finsent s : s_send_window (sk s) = [] -> open_state (s_state (sk s)) -> ostep s (mkSt (ss_state FinSent (sk s)) (wd s))
  | os_retries s n : 0 <= n < 2 ^ 32 -> ostep s (mkSt (ss_max_retries n (sk s)) (wd s)).

  Definition osteps := clos_refl_trans st ostep.
  Lemma osteps_refl s : osteps s s. Proof. apply rt_refl. Qed.
  Lemma osteps_snoc s s1 s2 : osteps s s1 -> ostep s1 s2 -> osteps s s2.
  Proof. intros H1 H2. eapply rt_trans; [exact H1|]. now apply rt_step. Qed.
  Lemma osteps_trans s s1 s2 : osteps s s1 -> osteps s1 s2 -> osteps s s2.
  Proof. intros. eapply rt_trans; eassumption. Qed.
  Lemma steps_osteps s s' : steps G W s s' -> osteps s s'.
  Proof. induction 1; [apply rt_step; now constructor|apply rt_refl|eapply rt_trans; eauto]. Qed.
  Lemma osteps_ind_inv (I : st -> Prop) : (forall s s', ostep s s' -> I s -> I s') -> forall s s', osteps s s' -> I s -> I s'.
  Proof. intros H s s' HS. induction HS; eauto. Qed.

  Definition opre (s : st) : Prop := pre G W s /\ Forall W (s_unsent_queue (sk s)).

  Lemma base_delay_frame_unsent d now k : s_unsent_queue (base_delay_socket d now k) = s_unsent_queue k.
  Proof. unfold base_delay_socket. destruct (_ || _); [reflexivity|]. cbv zeta. destruct (_ <? _); reflexivity. Qed.
  Lemma advance_frame_unsent k : s_unsent_queue (advance_socket k) = s_unsent_queue k.
  Proof. unfold advance_socket. destruct (s_incoming_buffer k); reflexivity. Qed.
  Lemma flush_frame_unsent n k : s_unsent_queue (snd (flush_sk n k)) = s_unsent_queue k.
  Proof.
    unfold flush_sk. destruct (s_pending_data k); [destruct (s_incoming_buffer k); [reflexivity|]; destruct (_ || _); [|reflexivity];
      destruct (payload _); [|reflexivity]|]; cbn [snd]; cbv zeta; destruct (_ =? _)%nat; rewrite ?advance_frame_unsent; reflexivity.
  Qed.
  Lemma skstep_unsent k k' : skstep G k k' -> s_unsent_queue k' = s_unsent_queue k.
  Proof. intros H; destruct H; try reflexivity. apply base_delay_frame_unsent. apply flush_frame_unsent. Qed.
  Lemma step_unsent s s' : step G W s s' -> s_unsent_queue (sk s') = s_unsent_queue (sk s).
  Proof. intros H; destruct H; try reflexivity. now apply skstep_unsent. Qed.
  Lemma steps_unsent s s' : steps G W s s' -> s_unsent_queue (sk s') = s_unsent_queue (sk s).
  Proof. induction 1; [now apply step_unsent|reflexivity|congruence]. Qed.

  Lemma ostep_opre s s' : ostep s s' -> opre s -> opre s'.
  Proof.
    intros H [[HE HW] HU]; destruct H; try (split; [split|]; assumption).
    - assert (pre G W s') by (eapply step_pre; eauto; split; assumption). split; [assumption|]. erewrite step_unsent by eauto. assumption.
    - split; [split; assumption|]. unfold queue_chunk. sproj. apply Forall_app. auto.
    - split; [split; assumption|]. sproj. rewrite H in HU. now inversion HU.
    - split; [split; [assumption|]|assumption]. sproj. apply Forall_app. auto.
    - split; [split; [|assumption]|assumption]. intros d src q Hin. apply (HE d src q). unfold tx_state in Hin. destruct (tx_ok s); exact Hin.
  Qed.
  Lemma osteps_opre s s' : osteps s s' -> opre s -> opre s'.
  Proof. apply osteps_ind_inv. exact ostep_opre. Qed.

  Definition oop {A} (s0 : st) (V : A -> st -> Prop) (o : outcome A) (s : st) : Prop :=
    match o with Ret a => osteps s0 s /\ V a s | Fail (Panic _) => True | Fail _ => osteps s0 s end.
  Definition ospec {A} (m : M A) (V : A -> st -> Prop) : Prop := forall s, opre s -> wp m (oop s V) s.

  Lemma oop_bind {A B} s0 (m : M A) (f : A -> M B) (V : A -> st -> Prop) (V' : B -> st -> Prop) s :
    wp m (oop s0 V) s -> (forall a s', osteps s0 s' -> V a s' -> wp (f a) (oop s0 V') s') -> wp (bind m f) (oop s0 V') s.
  Proof.
    intros H HK. apply wp_bind. eapply wp_conseq; [exact H|]. intros [a|e] s' HH; cbn in *.
    - destruct HH. apply HK; auto.
    - destruct e; auto.
  Qed.
  Lemma oop_conseq {A} s0 (m : M A) (V V' : A -> st -> Prop) s :
    wp m (oop s0 V) s -> (forall a s', osteps s0 s' -> V a s' -> V' a s') -> wp m (oop s0 V') s.
  Proof. intros H HK. eapply wp_conseq; [exact H|]. intros [a|[]] s' HH; cbn in *; intuition. Qed.
  Lemma oop_call {A} s0 (m : M A) (V : A -> st -> Prop) s :
    rspec G W m V -> opre s0 -> osteps s0 s -> wp m (oop s0 (fun a s' => steps G W s s' /\ V a s')) s.
  Proof.
    intros HR HP HS. destruct (osteps_opre _ _ HS HP) as [HP' _]. eapply wp_conseq; [apply HR, HP'|].
    intros [a|[]] s' HH; cbn in *; auto; try (eapply osteps_trans; [exact HS|now apply steps_osteps]).
    destruct HH. split; [eapply osteps_trans; [exact HS|now apply steps_osteps]|auto].
  Qed.
  Lemma oop_loop {S A} s0 fuel (body : S -> M (S + A)) (J : S -> st -> Prop) (V : A -> st -> Prop) x s :
    osteps s0 s -> J x s ->
    (forall y t, osteps s0 t -> J y t -> wp (body y) (oop s0 (fun r t' => match r with inl y' => J y' t' | inr a => V a t' end)) t) ->
    wp (loop fuel body x) (oop s0 V) s.
  Proof.
    intros HS HJ HB. apply (wp_loop (fun y t => osteps s0 t /\ J y t)); [auto|intros y t [H _]; exact H|].
    intros y t [HT HJt]. eapply wp_conseq; [apply HB; eassumption|]. intros [[y'|a]|[]] t' H; cbn in *; auto.
  Qed.
  Notation anyv := (fun _ _ => True).

  Lemma recv_from_osteps n : ospec (recv_from n) anyv.
  Proof.
    intros s HP. unfold recv_from.
    eapply oop_bind; [apply oop_call; [apply flush_incoming_steps|exact HP|apply osteps_refl]|].
    intros d s1 HS1 _. do 2 wstep. destruct (negb _); [wstep; split; auto|]. destruct (sstate_eqb _ _); [wstep; exact HS1|].
    do 2 wstep. apply (oop_loop _ _ _ anyv); [exact HS1|exact I|]. intros _ t HT _. do 2 wstep.
    destruct (sstate_eqb _ _); [wstep; split; auto|].
    eapply oop_bind; [apply oop_call; [apply recv_steps; assumption|exact HP|exact HT]|]. intros x s2 HS2 _.
    destruct (is_nil _); wstep; split; auto.
  Qed.

  Lemma send_osteps : ospec send anyv.
  Proof.
    intros s HP. unfold send. do 2 wstep. apply (oop_loop _ _ _ anyv); [apply osteps_refl|exact I|].
    intros _ t HT _. do 2 wstep. destruct (s_unsent_queue (sk t)) as [|p rest] eqn:EU; [wstep; split; auto|].
    do 2 wstep. assert (HT2 : osteps s (mkSt (ss_unsent_queue rest (sk t)) (wd t))) by (eapply osteps_snoc; [exact HT|eapply os_pop; exact EU]).
    assert (Wp : W p). { destruct (osteps_opre _ _ HT HP) as [_ HU]. rewrite EU in HU. now inversion HU. }
    eapply oop_bind; [apply oop_call; [apply (send_packet_steps G W); auto; apply recv_steps; assumption|exact HP|exact HT2]|].
    intros q s2 HS2 [_ Wq]. do 2 wstep. wstep; wstep; [intros; exact I|intros _]. do 2 wstep. sproj. wstep. split; [|exact I].
    eapply osteps_snoc; [exact HS2|]. now apply os_push.
  Qed.

  (** Every packet that queueing the chunks [cs] on [k] would create satisfies [W]. *)
  Fixpoint queue_ok (cs : list (list byte)) (k : socket) : Prop :=
    match cs with [] => True | c :: rest => W (chunk_packet k c) /\ queue_ok rest (queue_chunk c k) end.
  Lemma queue_osteps cs s0 s : osteps s0 s -> queue_ok cs (sk s) ->
    osteps s0 (mkSt (fold_left (fun k c => queue_chunk c k) cs (sk s)) (wd s)).
  Proof.
    revert s. induction cs as [|c cs IH]; intros s HS HQ; cbn [fold_left].
    - now rewrite st_sk_same.
    - destruct HQ as [H1 H2]. apply (IH (mkSt (queue_chunk c (sk s)) (wd s))); [|exact H2].
      eapply osteps_snoc; [exact HS|]. now constructor.
  Qed.
  Lemma send_to_osteps buf s : queue_ok (chunks CHUNK buf) (sk s) -> opre s -> wp (send_to buf) (oop s anyv) s.
  Proof.
    intros HQ HP. unfold send_to. do 2 wstep. destruct (sstate_eqb _ _); [wstep; apply osteps_refl|]. do 2 wstep.
    match goal with |- wp _ _ ?X => assert (HS : osteps s X) by (apply queue_osteps; [apply osteps_refl|exact HQ]) end.
    apply wp_bind. eapply wp_conseq; [apply send_osteps; eapply osteps_opre; eauto|].
    intros [[]|[]] s' H; cbn in H; cbv beta iota; cbn [oop]; auto; try (eapply osteps_trans; eauto; fail).
    wstep. destruct H. split; [eapply osteps_trans; eauto|exact I].
  Qed.

  Lemma flush_osteps s0 s : opre s0 -> osteps s0 s -> wp flush (oop s0 (fun _ s' => s_send_window (sk s') = [] /\ steps G W s s')) s.
  Proof.
    intros HP HS. unfold flush. do 2 wstep. apply (oop_loop _ _ _ (fun _ t => steps G W s t)); [exact HS|apply steps_refl|].
    intros _ t HT HT1. do 2 wstep. destruct (s_send_window (sk t)) eqn:EW; cbn [is_nil].
    - wstep. split; auto.
    - eapply oop_bind; [apply oop_call; [apply recv_steps; assumption|exact HP|exact HT]|]. intros x s2 HS2 [H2 _]. wstep.
      split; [exact HS2|]. eapply steps_trans; eauto.
  Qed.

  Lemma base_delay_frame_state d now k : s_state (base_delay_socket d now k) = s_state k.
  Proof. unfold base_delay_socket. destruct (_ || _); [reflexivity|]. cbv zeta. destruct (_ <? _); reflexivity. Qed.
  Lemma advance_frame_state k : s_state (advance_socket k) = s_state k.
  Proof. unfold advance_socket. destruct (s_incoming_buffer k); reflexivity. Qed.
  Lemma flush_frame_state n k : s_state (snd (flush_sk n k)) = s_state k.
  Proof.
    unfold flush_sk. destruct (s_pending_data k); [destruct (s_incoming_buffer k); [reflexivity|]; destruct (_ || _); [|reflexivity];
      destruct (payload _); [|reflexivity]|]; cbn [snd]; cbv zeta; destruct (_ =? _)%nat; rewrite ?advance_frame_state; reflexivity.
  Qed.
  Lemma skstep_open k k' : skstep G k k' -> open_state (s_state k) -> open_state (s_state k').
  Proof.
    unfold open_state. intros H HO; destruct H; sproj; try exact HO; try (split; discriminate); try (destruct HO; congruence).
    - now rewrite base_delay_frame_state.
    - now rewrite flush_frame_state.
  Qed.
  Lemma steps_open s s' : steps G W s s' -> open_state (s_state (sk s)) -> open_state (s_state (sk s')).
  Proof.
    apply (steps_ind_inv G W (fun s => open_state (s_state (sk s)))). intros t t' H; destruct H; auto. now apply skstep_open.
  Qed.

  Lemma close_osteps : ospec close anyv.
  Proof.
    intros s HP. unfold close. do 2 wstep.
    assert (HR : wp (ret tt) (oop s anyv) s) by (wstep; split; [apply osteps_refl|exact I]).
    assert (HC : open_state (s_state (sk s)) -> wp (flush ;;; send_fin ;;; upd_sk (ss_state FinSent) ;;;
      fuel <- event_fuel ;; loop fuel (fun _ : unit => s <- get_sk ;;
        if sstate_eqb (s_state s) Closed then ret (inr tt) else recv BUF_SIZE ;;; ret (inl tt)) tt) (oop s anyv) s).
    { intros HO. eapply oop_bind; [apply flush_osteps; [exact HP|apply osteps_refl]|]. intros _ s1 HS1 [HW H1].
      apply steps_open in H1; [|exact HO]. unfold send_fin. do 5 wstep.
      rewrite packet_new_wire, set_cid_wire, set_seq_wire, set_ack_wire, set_ts_wire, set_type_wire.
      cbn [h_type h_cid h_ts h_tsd h_wnd h_seq h_ack].
      assert (HS2 : osteps s (ticked s1)) by (eapply osteps_snoc; [exact HS1|apply os_step, st_tick]).
      match goal with |- wp _ _ ?X => assert (HSx : osteps s (tx_state (s_connected_to (sk s1)) (wire (mkHdr PFin (s_sender_connection_id (sk s1)) (clock_now s1) 0 0 (s_seq_nr (sk s1)) (s_ack_nr (sk s1))) [] []) X)) end.
      { eapply osteps_snoc; [exact HS2|]. apply (os_fin (ticked s1)); auto. apply micros_range. }
      apply wp_bind, wp_udp_send.
      - intros _. cbv beta iota. cbn [try_]. wstep. do 2 wstep. sproj.
        match goal with |- wp _ _ ?X => assert (HS3 : osteps s X) end.
        { eapply osteps_snoc; [exact HSx|]. apply os_finsent; [exact HW|exact H1]. }
        do 2 wstep. apply (oop_loop _ _ _ anyv); [exact HS3|exact I|]. intros _ t HT _. do 2 wstep.
        destruct (sstate_eqb _ _); [wstep; split; auto|].
        eapply oop_bind; [apply oop_call; [apply recv_steps; assumption|exact HP|exact HT]|]. intros x s4 HS4 _. wstep. split; auto.
      - intros k _. cbv beta iota. cbn [try_]. wstep. exact HSx.
      - intros _. exact HSx. }
    destruct (s_state (sk s)) eqn:ES; try exact HR; apply HC; split; discriminate.
  Qed.

  Definition op_queue_ok (o : op) (k : socket) : Prop :=
    match o with OSendTo d => queue_ok (chunks CHUNK d) k | _ => True end.
  Lemma run_op_osteps o s : op_queue_ok o (sk s) -> opre s -> wp (run_op o) (oop s anyv) s.
  Proof.
    intros HQ HP. destruct o; cbn [run_op].
    - eapply oop_bind; [apply recv_from_osteps; exact HP|]. intros; wstep; split; auto.
    - eapply oop_bind; [apply send_to_osteps; auto|]. intros; wstep; split; auto.
    - eapply oop_bind; [apply flush_osteps; [exact HP|apply osteps_refl]|]. intros; wstep; split; auto.
    - eapply oop_bind; [apply close_osteps; auto|]. intros; wstep; split; auto.
    - do 2 wstep. wstep. split; [|exact I]. apply rt_step, os_retries, u32_range.
    - unfold peer_addr. do 3 wstep. destruct (_ || _); wstep; [wstep; split; auto using osteps_refl|apply osteps_refl].
  Qed.
End Ops.

(** ** Reachable states *)

(** Any datagram may arrive. *)
Definition G0 (p : packet) (_ : addr) : Prop := valid p.
(** A packet in flight is a data packet without extensions, carrying 1 to 1380 bytes. *)
Definition W0 (p : packet) : Prop := exists h pl, p = wire h [] pl /\ h_type h = PData /\ (0 < length pl <= CHUNK)%nat.
Lemma G0_valid p src : G0 p src -> valid p. Proof. exact (fun H => H). Qed.
Lemma W0_ts p t : W0 p -> W0 (set_timestamp t p).
Proof. intros (h & pl & -> & HT & HL). rewrite set_ts_wire. eexists _, pl. split; [reflexivity|]. auto. Qed.
Lemma W0_tsd p t : W0 p -> W0 (set_timestamp_difference t p).
Proof. intros (h & pl & -> & HT & HL). rewrite set_tsd_wire. eexists _, pl. split; [reflexivity|]. auto. Qed.
Lemma chunk_packet_wire k c : chunk_packet k c = wire (mkHdr PData (s_sender_connection_id k) 0 0 0 (s_seq_nr k) (s_ack_nr k)) [] c.
Proof. unfold chunk_packet. now rewrite with_payload_wire, set_seq_wire, set_ack_wire, set_cid_wire. Qed.
Lemma W0_chunk k c : (0 < length c <= CHUNK)%nat -> W0 (chunk_packet k c).
Proof. intros H. rewrite chunk_packet_wire. eexists _, c. split; [reflexivity|]. auto. Qed.
Lemma queue_ok_W0 cs k : (forall c, In c cs -> (0 < length c <= CHUNK)%nat) -> queue_ok W0 cs k.
Proof.
  revert k. induction cs as [|c cs IH]; intros k H; cbn [queue_ok]; auto. split.
  - apply W0_chunk, H. now left.
  - apply IH. intros c' Hc. apply H. now right.
Qed.
Lemma op_queue_ok_W0 o k : op_queue_ok W0 o k.
Proof. destruct o; cbn; auto. apply queue_ok_W0. intros c. apply chunks_sizes. unfold CHUNK. lia. Qed.
Lemma evs_ok_G0 s : evs_ok G0 s.
Proof. intros d src p _ H. unfold G0, valid. pose proof (parse_inv _ _ H) as [-> _]. exact H. Qed.

Notation step0 := (step G0 W0).
Notation ostep0 := (ostep G0 W0).
Notation osteps0 := (osteps G0 W0).

(** A socket as its public constructors return it, driven by any sequence of calls; between calls, any new
    network events may be added.  Panics end a history.  The log of sent datagrams starts empty. *)
Definition not_panic {A} (o : outcome A) : Prop := forall l, o <> Fail (Panic l).
Inductive reachable : st -> Prop :=
| rc_bind resolved bound s0 s : w_sent (wd s0) = [] -> bind_socket resolved bound s0 = (Ret tt, s) -> reachable s
| rc_connect other bound s0 s : w_sent (wd s0) = [] -> connect other bound s0 = (Ret tt, s) -> reachable s
| rc_accept ev local bound s0 a s : w_sent (wd s0) = [] -> accept ev local bound s0 = (Ret a, s) -> reachable s
| rc_op o s v s' : reachable s -> run_op o s = (v, s') -> not_panic v -> reachable s'
| rc_input s evs : reachable s -> reachable (mkSt (sk s) (sw_in evs (wd s))).

(** Sockets from which everything else evolves by steps. *)
Inductive init_sk : socket -> Prop :=
| in_new id a : init_sk (fresh_socket (sequential_identifiers (u16 id)) a)
| in_syn id a src : init_sk (ss_connected_to src (ss_state SynSent (ss_connected_to a (fresh_socket (sequential_identifiers (u16 id)) (wildcard a))))).

Lemma init_opre s : init_sk (sk s) -> opre G0 W0 s.
Proof.
  intros H. split; [split; [apply evs_ok_G0|]|]; inversion H; constructor.
Qed.

Lemma bind_socket_spec resolved bound s0 s : bind_socket resolved bound s0 = (Ret tt, s) ->
  exists a rest, resolved = Ok (a :: rest) /\ bound = Ok tt /\ s = mkSt (fresh_socket (sequential_identifiers (u16 (w_rand (wd s0) (w_rtick (wd s0))))) a)
    (sw_rtick (S (w_rtick (wd s0))) (wd s0)).
Proof.
  unfold bind_socket, bind, take_address. destruct resolved as [[|a rest]|]; try discriminate. cbn [ret].
  destruct bound as [[]|]; cbn; [|discriminate]. intros [= <-]. exists a, rest. auto.
Qed.
Lemma ss_connected_same k : ss_connected_to (s_connected_to k) k = k.
Proof. destruct k; reflexivity. Qed.
Lemma syn_loop_sk tries p s : (20 <= length p)%nat -> (0 < tries)%nat -> wp (syn_loop tries p) (fun o s' =>
  match o with Ret _ => (exists src, sk s' = ss_connected_to src (ss_state SynSent (sk s))) /\
     exists syns, w_sent (wd s') = w_sent (wd s) ++ syns /\
       Forall (fun x => fst x = s_connected_to (sk s) /\ exists t, 0 <= t < 2 ^ 32 /\ snd x = set_timestamp t p) syns /\ (0 < length syns <= tries)%nat
   | _ => True end) s.
Proof.
  assert (Hts : forall t t' q, (20 <= length q)%nat -> set_timestamp t (set_timestamp t' q) = set_timestamp t q).
  { intros t t' q Hq. destruct (raw_surj q Hq) as (b0 & b1 & cid & ts & tsd & wnd & sq & ak & rest & -> & _). now rewrite !raw_set_ts. }
  intros Hlen. revert p s Hlen. induction tries as [|n IH]; intros p s Hlen HT; [lia|]. cbn [syn_loop]. do 2 wstep. cbv zeta. do 3 wstep.
  apply wp_udp_send; intros; cbv beta iota; cbn [try_]; try exact I. do 3 wstep. do 2 wstep. sproj.
  assert (Hsent : w_sent (wd (tx_state (s_connected_to (sk (ticked s))) (set_timestamp (clock_now s) p) (ticked s))) =
    w_sent (wd s) ++ [(s_connected_to (sk s), set_timestamp (clock_now s) p)]).
  { unfold tx_state. rewrite H. reflexivity. }
  assert (Hone : Forall (fun x => fst x = s_connected_to (sk s) /\ exists t, 0 <= t < 2 ^ 32 /\ snd x = set_timestamp t p)
    [(s_connected_to (sk s), set_timestamp (clock_now s) p)]).
  { constructor; [|constructor]. cbn [fst snd]. split; [reflexivity|]. exists (clock_now s). split; [apply micros_range|reflexivity]. }
  apply wp_udp_recv; try (intros; exact I).
  - intros d src rest _. do 3 wstep. sproj. split; [exists src; reflexivity|].
    eexists. split; [exact Hsent|]. split; [exact Hone|]. cbn; lia.
  - intros k rest _. destruct (is_timeout k); [|exact I]. destruct n as [|n].
    + cbn [syn_loop]. wstep. split.
      * exists (s_connected_to (sk s)). unfold rx_state. sproj. symmetry.
        change (s_connected_to (sk s)) with (s_connected_to (ss_state SynSent (sk s))). apply ss_connected_same.
      * eexists. split; [exact Hsent|]. split; [exact Hone|]. cbn; lia.
    + eapply wp_conseq; [apply IH; [|lia]|].
      { unfold set_timestamp, set_field. rewrite !app_length, firstn_length, skipn_length, be_encode_length. lia. }
      intros [b|] s' HH; [|exact I]. destruct HH as [[src ->] (syns & E1 & E2 & E3)]. split; [exists src; reflexivity|].
      eexists. rewrite E1. split; [unfold rx_state; sproj; rewrite Hsent, <- app_assoc; reflexivity|]. split.
      * apply Forall_app. split; [exact Hone|]. eapply Forall_impl; [|exact E2]. cbn beta. intros x [Hx (t & Ht & Hx')].
        split; [exact Hx|]. exists t. split; [exact Ht|]. rewrite Hx'. now apply Hts.
      * rewrite app_length. cbn [length]. lia.
Qed.

(** The SYN datagram of a connection attempt. *)
Definition is_syn (p : packet) : Prop := exists cid ts, p = wire (mkHdr PSyn cid ts 0 0 1 0) [] [].
Definition syn_log (log : list (addr * packet)) : Prop := Forall (fun x => is_syn (snd x)) log.

(** The socket and its log evolve by steps from a fresh socket. *)
Definition evolves (s : st) : Prop := exists i, init_sk (sk i) /\ syn_log (w_sent (wd i)) /\ osteps0 i s.

Lemma syn_packet_wire k : syn_packet k = wire (mkHdr PSyn (s_receiver_connection_id k) 0 0 0 (s_seq_nr k) 0) [] [].
Proof. unfold syn_packet. now rewrite packet_new_wire, set_type_wire, set_cid_wire, set_seq_wire. Qed.
Lemma connect_evolves other bound s0 s : w_sent (wd s0) = [] -> connect other bound s0 = (Ret tt, s) -> evolves s.
Proof.
  intros H0 H. assert (HW : wp (connect other bound) (fun o s' => match o with Ret _ => evolves s' | _ => True end) s0); [|unfold wp in HW; rewrite H in HW; exact HW].
  clear H s. unfold connect, take_address. destruct other as [[|a rest]|]; try exact I. do 2 wstep. wstep.
  apply wp_intro. intros o s HB. destruct o as [[]|]; [|exact I]. apply bind_socket_spec in HB as (a' & rest' & [= <- <-] & -> & ->).
  do 2 wstep. sproj. do 3 wstep. sproj.
  eapply wp_conseq; [apply syn_loop_sk; [rewrite syn_packet_wire, wire_length; cbn; lia|unfold MAX_SYN_RETRIES; lia]|].
  intros [b|] s1 HH; [|exact I]. destruct HH as [[src Esk] (syns & E1 & E2 & _)]. sproj_in Esk. sproj_in E1.
  do 2 wstep. wstep. apply wp_unwrap; [|intros; exact I]. intros [p|e] Hp; [|exact I]. wstep.
  assert (HI : init_sk (sk s1)) by (rewrite Esk; constructor).
  assert (HL : syn_log (w_sent (wd s1))).
  { rewrite E1, H0. eapply Forall_impl; [|exact E2]. cbn beta. intros x [_ (t & _ & ->)]. rewrite syn_packet_wire, set_ts_wire.
    cbn [h_type h_cid h_tsd h_wnd h_seq h_ack fresh_socket s_receiver_connection_id s_seq_nr]. eexists _, t. reflexivity. }
  eapply wp_conseq; [apply (handle_packet_steps G0 W0 G0_valid W0_ts W0_tsd)|].
  - intros n. exact (recv_steps G0 W0 G0_valid W0_ts W0_tsd n).
  - unfold G0, valid. pose proof (parse_inv _ _ Hp) as [-> _]. exact Hp.
  - apply init_opre, HI.
  - intros [r|[]] s2 HH; cbn in HH; try exact I. wstep. exists s1. split; [exact HI|]. split; [exact HL|]. apply steps_osteps. apply HH.
Qed.

Lemma accept_evolves ev local bound s0 a s : w_sent (wd s0) = [] -> accept ev local bound s0 = (Ret a, s) ->
  exists s' dest r, evolves s' /\ is_reply (sk s') r /\ sk s = sk s' /\ w_sent (wd s) = w_sent (wd s') ++ [(dest, r)].
Proof.
  intros H0 H. assert (HW : wp (accept ev local bound) (fun o s => match o with Ret _ =>
    exists s' dest r, evolves s' /\ is_reply (sk s') r /\ sk s = sk s' /\ w_sent (wd s) = w_sent (wd s') ++ [(dest, r)] | _ => True end) s0); [|unfold wp in HW; rewrite H in HW; exact HW].
  clear H s. unfold accept. destruct ev as [data src| |]; try exact I. wstep. apply wp_unwrap; [|intros; exact I]. intros [p|e] Hp; [|exact I].
  unfold m_get_type. wstep. apply wp_unwrap; [|intros; exact I]. intros ty Hty. destruct (negb _); [exact I|].
  wstep. apply wp_try; [|intros; exact I]. intros la ->. wstep. apply wp_try; [|intros; exact I]. intros lb ->.
  unfold from_raw_parts. do 2 wstep. apply wp_rand. intros id ->. cbv beta iota. wstep. sproj.
  match goal with |- wp _ _ ?X => set (s1 := X) end.
  assert (HI : init_sk (sk s1)) by constructor.
  assert (HL : syn_log (w_sent (wd s1))) by (unfold s1; cbn; rewrite H0; constructor).
  assert (HH : wp (handle_packet recv p src) (okp G0 W0 s1 reply_ok) s1).
  { apply (handle_packet_steps G0 W0 G0_valid W0_ts W0_tsd).
    - intros n. exact (recv_steps G0 W0 G0_valid W0_ts W0_tsd n).
    - unfold G0, valid. pose proof (parse_inv _ _ Hp) as [-> _]. exact Hp.
    - apply init_opre, HI. }
  unfold wp in HH |- *. destruct (handle_packet recv p src s1) as [[[r|]|[]] s2]; cbn in HH; cbn [fst snd]; try exact I.
  destruct HH as [HS HR]. unfold bind, udp_send. destruct (w_send _ _); cbn; try exact I.
  exists s2, src, r. split; [exists s1; split; [exact HI|]; split; [exact HL|]; now apply steps_osteps|]. split; [now apply HR|]. auto.
Qed.

Definition wins_ok (k : socket) : Prop := Forall W0 (s_send_window k) /\ Forall W0 (s_unsent_queue k).
Lemma opre0 s : opre G0 W0 s <-> wins_ok (sk s).
Proof. split; [intros [[_ H1] H2]; split; auto|]. intros [H1 H2]. split; [split; [apply evs_ok_G0|]|]; auto. Qed.

(** To show something of socket and log in every reachable state, it suffices to show it of fresh sockets and
    that every step preserves it. *)
Lemma reachable_log_inv (J : socket -> list (addr * packet) -> Prop) :
  (forall k log, init_sk k -> syn_log log -> J k log) ->
  (forall s s', ostep0 s s' -> wins_ok (sk s) -> J (sk s) (w_sent (wd s)) -> J (sk s') (w_sent (wd s'))) ->
  (forall k log dest r, J k log -> is_reply k r -> J k (log ++ [(dest, r)])) ->
  forall s, reachable s -> J (sk s) (w_sent (wd s)) /\ wins_ok (sk s).
Proof.
  intros HI HS HA s HR.
  assert (HSS : forall s s', osteps0 s s' -> J (sk s) (w_sent (wd s)) /\ wins_ok (sk s) -> J (sk s') (w_sent (wd s')) /\ wins_ok (sk s')).
  { apply (osteps_ind_inv G0 W0 (fun s => J (sk s) (w_sent (wd s)) /\ wins_ok (sk s))). intros t t' Ht [H1 H2]. split; [eapply HS; eauto|].
    apply opre0. eapply ostep_opre; [exact W0_ts|exact Ht|]. now apply opre0. }
  assert (HE : forall s, evolves s -> J (sk s) (w_sent (wd s)) /\ wins_ok (sk s)).
  { intros t (i & Hi & Hl & Hs). apply (HSS _ _ Hs). split; [now apply HI|]. apply opre0. now apply init_opre. }
  induction HR as [resolved bound s0 s H0 H|other bound s0 s H0 H|ev local bound s0 a s H0 H|o s v s' HR IH H HP|s evs HR IH].
  - apply bind_socket_spec in H as (a & rest & _ & _ & ->). apply HE. eexists. split; [|split; [|apply osteps_refl]]. constructor. cbn. rewrite H0. constructor.
  - apply HE. eapply connect_evolves; eauto.
  - apply accept_evolves in H as (s' & dest & r & HV & Hr & -> & ->); [|exact H0]. destruct (HE _ HV). split; auto.
  - assert (HO : opre G0 W0 s) by (apply opre0, IH).
    pose proof (run_op_osteps G0 W0 G0_valid W0_ts W0_tsd o s (op_queue_ok_W0 _ _) HO) as HW. unfold wp in HW. rewrite H in HW. cbn [fst snd] in HW.
    destruct v as [v|[k|l| |]]; cbn in HW; try (now apply (HSS _ _ HW)).
    + now apply (HSS _ _ (proj1 HW)).
    + now destruct (HP l).
  - exact IH.
Qed.
Lemma reachable_inv (J : socket -> Prop) :
  (forall k, init_sk k -> J k) ->
  (forall s s', ostep0 s s' -> wins_ok (sk s) -> J (sk s) -> J (sk s')) ->
  forall s, reachable s -> J (sk s) /\ wins_ok (sk s).
Proof. intros HI HS. apply (reachable_log_inv (fun k _ => J k)); eauto. Qed.
