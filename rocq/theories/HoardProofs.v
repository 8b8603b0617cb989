(** How large the packets in the reorder buffer are (C93). *)
From Verif Require Export Inv CongProofs.
Require Import ZifyBool ZifyNat ZifyN.
Local Open Scope Z_scope.

(** A packet of an opening connection is not stored. *)
Lemma opening_stores_nothing p src s : s_state (sk s) = New \/ s_state (sk s) = SynSent -> s_incoming_buffer (sk s) = [] ->
  wp (handle_packet recv p src) (fun o s' => match o with Ret _ => s_incoming_buffer (sk s') = [] | _ => True end) s.
Proof.
  intros HS HB. unfold handle_packet, ack_in_order. do 2 wstep.
  match goal with |- wp _ _ ?t => assert (HT : s_state (sk t) = s_state (sk s) /\ s_incoming_buffer (sk t) = []) by (cbn [sk]; destruct (_ =? _); auto); generalize dependent t end. intros t [HT1 HT2].
  wstep. unfold m_get_type. apply wp_unwrap; [|intros; exact I]. intros ty _. do 2 wstep. unfold prepare_reply. destruct (_ && _); [do 6 wstep; exact HT2|].
  do 2 wstep. do 2 wstep. do 2 wstep.
  match goal with |- wp _ _ ?u => assert (HU : s_state (sk u) = s_state (sk s) /\ s_incoming_buffer (sk u) = []) by (sproj; rewrite <- HT1; auto); generalize dependent u end. intros u [HU1 HU2].
  unfold dispatch. wstep. apply wp_get_sk. cbv beta iota. rewrite HU1.
  destruct HS as [HS|HS]; rewrite HS; destruct ty; unfold prepare_reply; try exact I.
  - do 2 wstep. wstep. apply wp_rand. intros v _. cbv beta iota. do 2 wstep. wstep. apply wp_arith; intros; [exact I|]. cbv beta iota. do 8 wstep. exact HU2.
  - do 2 wstep. wstep. apply wp_arith; intros; [exact I|]. cbv beta iota. do 6 wstep. exact HU2.
  - do 6 wstep. exact HU2.
Qed.
Lemma connect_stores_nothing other bound s0 s : connect other bound s0 = (Ret tt, s) -> s_incoming_buffer (sk s) = [].
Proof.
  intros H. assert (HW : wp (connect other bound) (fun o s' => match o with Ret _ => s_incoming_buffer (sk s') = [] | _ => True end) s0); [|unfold wp in HW; rewrite H in HW; exact HW].
  clear H s. unfold connect, take_address. destruct other as [[|a rest]|]; try exact I. do 2 wstep. wstep.
  apply wp_intro. intros o s HB. destruct o as [[]|]; [|exact I]. apply bind_socket_spec in HB as (a' & rest' & [= <- <-] & -> & ->).
  do 2 wstep. sproj. do 3 wstep. sproj.
  eapply wp_conseq; [apply syn_loop_sk; [rewrite syn_packet_wire, wire_length; cbn; lia|unfold MAX_SYN_RETRIES; lia]|].
  intros [b|] s1 HH; [|exact I]. destruct HH as [[src Esk] _]. sproj_in Esk.
  do 2 wstep. wstep. apply wp_unwrap; [|intros; exact I]. intros [p|e] Hp; [|exact I]. wstep.
  eapply wp_conseq; [apply opening_stores_nothing; rewrite Esk; [right|]; reflexivity|]. intros [r|e] s2 HH; [|exact I]. wstep. exact HH.
Qed.
Lemma accept_stores_nothing ev local bound s0 a s : accept ev local bound s0 = (Ret a, s) -> s_incoming_buffer (sk s) = [].
Proof.
  intros H. assert (HW : wp (accept ev local bound) (fun o s => match o with Ret _ => s_incoming_buffer (sk s) = [] | _ => True end) s0); [|unfold wp in HW; rewrite H in HW; exact HW].
  clear H s. unfold accept. destruct ev as [data src| |]; try exact I. wstep. apply wp_unwrap; [|intros; exact I]. intros [p|e] Hp; [|exact I].
  unfold m_get_type. wstep. apply wp_unwrap; [|intros; exact I]. intros ty Hty. destruct (negb _); [exact I|].
  wstep. apply wp_try; [|intros; exact I]. intros la ->. wstep. apply wp_try; [|intros; exact I]. intros lb ->.
  unfold from_raw_parts. do 2 wstep. apply wp_rand. intros id ->. cbv beta iota. wstep. sproj.
  match goal with |- wp _ _ ?X => set (s1 := X) end. pose proof (opening_stores_nothing p src s1 (or_introl eq_refl) eq_refl) as HH.
  unfold wp in HH |- *. destruct (handle_packet recv p src s1) as [[[r|]|[]] s2]; cbn in HH; cbn [fst snd]; try exact I.
  unfold bind, udp_send. destruct (w_send _ _); cbn; try exact I. exact HH.
Qed.

(** What recv takes off the network is cut to 1520 bytes. *)
Definition G1 (p : packet) (_ : addr) : Prop := valid p /\ (length p <= 1520)%nat.
Lemma G1_valid p src : G1 p src -> valid p. Proof. now intros [H _]. Qed.
Lemma evs_ok_G1 s : evs_ok G1 s.
Proof.
  intros d src p _ H. pose proof (parse_inv _ _ H) as [E _]. split; [rewrite E in *; exact H|]. rewrite E. rewrite firstn_length. unfold BUF_SIZE, HEADER_SIZE. lia.
Qed.
Definition small_buffer (k : socket) : Prop := Forall (fun p => (length p <= 1520)%nat) (s_incoming_buffer k).
Lemma small_eq k k' : s_incoming_buffer k' = s_incoming_buffer k -> small_buffer k -> small_buffer k'.
Proof. unfold small_buffer. now intros ->. Qed.
Lemma small_advance k : small_buffer k -> small_buffer (advance_socket k).
Proof. unfold small_buffer, advance_socket. intros H. destruct (s_incoming_buffer k) as [|p rest] eqn:E; [now rewrite E|]. sproj. now inversion H. Qed.
Lemma skstep_small k k' : skstep G1 k k' -> small_buffer k -> small_buffer k'.
Proof.
  intros H HP; destruct H; try (eapply small_eq; [|exact HP]; reflexivity).
  - unfold base_delay_socket. destruct (_ || _); [eapply small_eq; [|exact HP]; reflexivity|]. cbv zeta. destruct (_ <? _); [eapply small_eq; [|exact HP]; reflexivity|exact HP].
  - destruct H as [_ H]. unfold small_buffer in *. sproj. unfold insert_packet. destruct (match last_opt _ with Some _ => _ | None => _ end); [apply Forall_app; auto|].
    cbv zeta. destruct (match nth_error _ _ with Some _ => _ | None => _ end); [|exact HP].
    match goal with |- Forall _ (firstn ?i _ ++ _) => rewrite <- (firstn_skipn i) in HP end. apply Forall_app in HP as [H3 H4]. apply Forall_app. auto.
  - unfold flush_sk. destruct (s_pending_data k) as [|b pd] eqn:EP.
    + destruct (s_incoming_buffer k) as [|p rest] eqn:EB; [cbn [snd]; exact HP|]. destruct (_ || _); [|cbn [snd]; exact HP]. destruct (payload p) as [pl|] eqn:EL; [|cbn [snd]; exact HP].
      cbv zeta. cbn [snd]. destruct (_ =? _)%nat; [now apply small_advance|]. eapply small_eq; [|exact HP]; reflexivity.
    + cbv zeta. cbn [snd]. destruct (_ =? _)%nat; [apply small_advance|]; (eapply small_eq; [|exact HP]; reflexivity).
Qed.
Lemma ostep_small s s' : ostep G1 W0 s s' -> small_buffer (sk s) -> small_buffer (sk s').
Proof.
  intros H HP. destruct H as [s s' H|s ch HW|s p rest HU|s p HW|s ts Hts HW HS|s HW HS|s n Hn]; try exact HP; try (eapply small_eq; [|exact HP]; reflexivity).
  destruct H as [s k H|s|s|s ev rest H|s dest p H]; try exact HP. now apply (skstep_small _ _ H).
Qed.
Lemma reachable_small s : reachable s -> small_buffer (sk s).
Proof.
  induction 1 as [resolved bound s0 s H0 H|other bound s0 s H0 H|ev local bound s0 a s H0 H|o s v s' HR IH H HP|s evs HR IH].
  - apply bind_socket_spec in H as (a & rest & _ & _ & ->). constructor.
  - unfold small_buffer. rewrite (connect_stores_nothing _ _ _ _ H). constructor.
  - unfold small_buffer. rewrite (accept_stores_nothing _ _ _ _ _ _ H). constructor.
  - pose proof (reachable_wins s HR) as [HW1 HW2]. assert (HO : opre G1 W0 s) by (split; [split; [apply evs_ok_G1|exact HW1]|exact HW2]).
    pose proof (run_op_osteps G1 W0 G1_valid W0_ts W0_tsd o s (op_queue_ok_W0 _ _) HO) as HW. unfold wp in HW. rewrite H in HW. cbn [fst snd] in HW.
    assert (HSS : forall t, osteps G1 W0 s t -> small_buffer (sk t)).
    { intros t Ht. revert IH. apply (osteps_ind_inv G1 W0 (fun s => small_buffer (sk s))); [|exact Ht]. intros x y. apply ostep_small. }
    destruct v as [v|[k|l| |]]; cbn in HW; [apply HSS, HW|apply HSS, HW|now destruct (HP l)|apply HSS, HW|apply HSS, HW].
  - exact IH.
Qed.
