(** Everything the receive path ([recv] and all it calls) can do to a socket and its world, as a relation
    of elementary steps.  Invariants only have to be checked against these steps. *)
From Verif Require Export Hoare.
From Coq Require Export Relations.Relation_Operators.
Require Import ZifyBool ZifyNat ZifyN.
Local Open Scope Z_scope.
Ltac Zify.zify_post_hook ::= Z.div_mod_to_equations.

Definition valid (p : packet) : Prop := packet_try_from p = Some (Ok p).

(** Pure reading of [flush_incoming_buffer]. *)
Definition flush_sk (n : nat) (k : socket) : list byte * socket :=
  match s_pending_data k with
  | _ :: _ =>
    let d := firstn n (s_pending_data k) in
    (d, if (length d =? length (s_pending_data k))%nat then advance_socket (ss_pending_data [] k)
        else ss_pending_data (skipn (length d) (s_pending_data k)) k)
  | [] =>
    match s_incoming_buffer k with
    | [] => ([], k)
    | p :: _ =>
      if (s_ack_nr k =? seq_nr p) || (u16 (s_ack_nr k + 1) =? seq_nr p) then
        match payload p with
        | None => ([], k)
        | Some pl =>
          let d := firstn n pl in
          (d, if (length d =? length pl)%nat then advance_socket k else ss_pending_data (skipn (length d) pl) k)
        end
      else ([], k)
    end
  end.

(** Pure reading of [update_congestion_timeout]. *)
Definition rto_sk (d : Z) (k : socket) : socket :=
  let delta := i32 (s_rtt k - d) in
  let var := i32 (s_rtt_variance k + Z.quot (i32 (i32 (Z.abs delta) - s_rtt_variance k)) 4) in
  let rtt := i32 (s_rtt k + Z.quot (i32 (d - s_rtt k)) 8) in
  ss_congestion_timeout (Z.min (Z.max (u64 (i32 (rtt + i32 (var * 4)))) MIN_CONGESTION_TIMEOUT) MAX_CONGESTION_TIMEOUT)
    (ss_rtt rtt (ss_rtt_variance var k)).

Definition seq_is (a : Z) (p : packet) : bool := seq_nr p =? a.

Section Steps.
  (** [G p src]: the packets that may be received; [W p]: the packets that may be in flight. *)
  Variable G : packet -> addr -> Prop.
  Variable W : packet -> Prop.

  (** Some State packet that may be received carries this acknowledgement number. *)
  Definition peer_acked (a : Z) : Prop := exists p src, G p src /\ get_type p = Some PState /\ ack_nr p = a.

  Inductive skstep : socket -> socket -> Prop :=
  | k_backoff k : skstep k (ss_cwnd MSS (ss_congestion_timeout (u64 (s_congestion_timeout k * 2)) k))
  | k_giveup k : skstep k (ss_state Closed k)
  | k_refresh k p rest t : s_send_window k = p :: rest -> 0 <= t < 2 ^ 32 ->
      skstep k (ss_send_window (set_timestamp t p :: rest) k)
  | k_ack k p src : G p src -> u16 (seq_nr p - s_ack_nr k) = 1 -> skstep k (ss_ack_nr (seq_nr p) k)
  | k_wnd k p src : G p src -> skstep k (ss_remote_wnd_size (wnd_size p) k)
  | k_delay k d : 0 <= d < 2 ^ 32 -> skstep k (ss_their_delay d k)
  | k_syn k p src sq : G p src -> get_type p = Some PSyn -> s_state k = New -> 0 <= sq < 2 ^ 16 ->
      skstep k (ss_last_dropped (seq_nr p) (ss_state Connected (ss_sender_connection_id (connection_id p)
        (ss_receiver_connection_id (u16 (connection_id p + 1)) (ss_seq_nr sq (ss_ack_nr (seq_nr p) (ss_connected_to src k)))))))
  | k_synack k p src : G p src -> get_type p = Some PState -> s_state k = SynSent ->
      skstep k (ss_last_acked (ack_nr p) (ss_state Connected (ss_seq_nr (u16 (s_seq_nr k + 1)) (ss_ack_nr (seq_nr p) (ss_connected_to src k)))))
  | k_latime k t : 0 <= t < 2 ^ 32 -> skstep k (ss_last_acked_timestamp t k)
  | k_fin k p src : G p src -> get_type p = Some PFin -> s_state k = Connected \/ s_state k = FinSent -> skstep k (ss_state Closed k)
  | k_finack k p src : G p src -> get_type p = Some PState -> s_state k = FinSent -> ack_nr p = s_seq_nr k -> skstep k (ss_state Closed k)
  | k_reset k p src : G p src -> get_type p = Some PReset -> s_state k <> SynSent -> skstep k (ss_state ResetReceived k)
  | k_last_acked k p src : G p src -> get_type p = Some PState -> skstep k (ss_last_acked (ack_nr p) k)
  | k_dup_inc k : skstep k (ss_duplicate_ack_count (u32 (s_duplicate_ack_count k + 1)) k)
  | k_dup_one k t : 0 <= t < 2 ^ 32 -> skstep k (ss_duplicate_ack_count 1 (ss_last_acked_timestamp t k))
  | k_base k d now : - 2 ^ 32 < d < 2 ^ 32 -> 0 <= now < 2 ^ 32 -> skstep k (base_delay_socket d now k)
  | k_current k d now : - 2 ^ 32 < d < 2 ^ 32 -> 0 <= now < 2 ^ 32 -> skstep k (current_delay_socket d now k)
  | k_cwnd k off bytes :
      skstep k (ss_cwnd (Z.max (Z.min (grown_cwnd off bytes (s_cwnd k)) (u32 (s_curr_window k + ALLOWED_INCREASE * MSS))) (MIN_CWND * MSS)) k)
  | k_rto k d : 0 <= d <= 4294967 -> skstep k (rto_sk d k)
  | k_halve k : skstep k (ss_cwnd (Z.max (s_cwnd k / 2) (MIN_CWND * MSS)) k)
  | k_advance k pos : position (seq_is (s_last_acked k)) (s_send_window k) = Some pos -> peer_acked (s_last_acked k) ->
      skstep k (ss_curr_window (u32 (s_curr_window k - sum_len (firstn (pos + 1) (s_send_window k))))
                 (ss_send_window (skipn (pos + 1) (s_send_window k)) k))
  | k_insert k p src : G p src -> get_type p = Some PData -> 0 < u16 (seq_nr p - s_last_dropped k) ->
      skstep k (ss_incoming_buffer (insert_packet p (s_incoming_buffer k)) k)
  | k_flush k n : skstep k (snd (flush_sk n k)).

  (** The datagrams the receive path puts on the wire, in terms of the socket at that moment. *)
  Definition reply_exts (k : socket) (exts : list wext) : Prop :=
    exts = [] \/ exists sack, sack <> [] /\ sack_build (s_ack_nr k) [] (s_incoming_buffer k) = Some sack /\ exts = [(x01, sack)].
  Inductive emits (k : socket) : addr -> packet -> Prop :=
  | em_reply orig src t ts tsd exts : G orig src ->
      t = PReset \/ t = PState \/ (t = PFin /\ s_state k = FinSent) ->
      0 <= ts < 2 ^ 32 -> 0 <= tsd < 2 ^ 32 -> reply_exts k exts -> (t = PReset -> exts = []) ->
      emits k src (wire (mkHdr t (s_sender_connection_id k) ts tsd WINDOW_SIZE (s_seq_nr k) (s_ack_nr k)) exts [])
  | em_fin ts : 0 <= ts < 2 ^ 32 -> s_state k = FinSent ->
      emits k (s_connected_to k) (wire (mkHdr PFin (s_sender_connection_id k) ts 0 0 (s_seq_nr k) (s_ack_nr k)) [] [])
  | em_fast ts : 0 <= ts < 2 ^ 32 -> s_send_window k = [] -> s_state k <> New ->
      emits k (s_connected_to k) (wire (mkHdr PState (s_sender_connection_id k) ts (u32 (s_their_delay k)) 0 (s_seq_nr k) (s_ack_nr k)) [] [])
  | em_data p : W p -> emits k (s_connected_to k) p.

  Inductive step : st -> st -> Prop :=
  | st_sk s k : skstep (sk s) k -> step s (mkSt k (wd s))
  | st_tick s : step s (ticked s)
  | st_rtick s : step s (rticked s)
  | st_rx s ev rest : w_in (wd s) = ev :: rest -> step s (rx_state s)
  | st_tx s dest p : emits (sk s) dest p -> step s (tx_state dest p s).

  Definition steps := clos_refl_trans st step.
  Lemma steps_refl s : steps s s. Proof. apply rt_refl. Qed.
  Lemma steps_snoc s s1 s2 : steps s s1 -> step s1 s2 -> steps s s2.
  Proof. intros H1 H2. eapply rt_trans; [exact H1|]. now apply rt_step. Qed.
  Lemma steps_trans s s1 s2 : steps s s1 -> steps s1 s2 -> steps s s2.
  Proof. intros. eapply rt_trans; eassumption. Qed.

  (** Anything preserved by each step is preserved by all. *)
  Lemma steps_ind_inv (I : st -> Prop) : (forall s s', step s s' -> I s -> I s') -> forall s s', steps s s' -> I s -> I s'.
  Proof. intros H s s' HS. induction HS; eauto. Qed.

  Hypothesis G_valid : forall p src, G p src -> valid p.
  Hypothesis W_ts : forall p t, W p -> W (set_timestamp t p).
  Hypothesis W_tsd : forall p t, W p -> W (set_timestamp_difference t p).

  Definition evs_ok (s : st) : Prop := forall d src p, In (RxDgram d src) (w_in (wd s)) ->
    packet_try_from (firstn (BUF_SIZE + HEADER_SIZE) d) = Some (Ok p) -> G p src.
  Definition pre (s : st) : Prop := evs_ok s /\ Forall W (s_send_window (sk s)).

  Lemma base_delay_frame_win d now k : s_send_window (base_delay_socket d now k) = s_send_window k.
  Proof. unfold base_delay_socket. destruct (_ || _); [reflexivity|]. cbv zeta. destruct (_ <? _); reflexivity. Qed.
  Lemma advance_frame_win k : s_send_window (advance_socket k) = s_send_window k.
  Proof. unfold advance_socket. destruct (s_incoming_buffer k); reflexivity. Qed.
  Lemma flush_frame_win n k : s_send_window (snd (flush_sk n k)) = s_send_window k.
  Proof.
    unfold flush_sk. destruct (s_pending_data k); [destruct (s_incoming_buffer k); [reflexivity|]; destruct (_ || _); [|reflexivity];
      destruct (payload _); [|reflexivity]|]; cbn [snd]; cbv zeta; destruct (_ =? _)%nat; rewrite ?advance_frame_win; reflexivity.
  Qed.

  Lemma skstep_win k k' : skstep k k' -> Forall W (s_send_window k) -> Forall W (s_send_window k').
  Proof.
    intros H HW; destruct H; try exact HW.
    - sproj. rewrite H in HW. inversion HW; subst. constructor; auto.
    - now rewrite base_delay_frame_win.
    - sproj. apply Forall_forall. intros x Hx. rewrite Forall_forall in HW. apply HW.
      rewrite <- (firstn_skipn (pos + 1)). apply in_or_app. now right.
    - now rewrite flush_frame_win.
  Qed.
  Lemma step_pre s s' : step s s' -> pre s -> pre s'.
  Proof.
    intros H [HE HW]; destruct H.
    - split; [exact HE|]. eapply skstep_win; eauto.
    - split; assumption.
    - split; assumption.
    - split; [|exact HW]. intros d src p Hin. apply (HE d src p). rewrite H. unfold rx_state in Hin. cbn in Hin.
      rewrite H in Hin. now right.
    - split; [|exact HW]. intros d src q Hin. apply (HE d src q). unfold tx_state in Hin.
      destruct (tx_ok s); exact Hin.
  Qed.
  Lemma steps_pre s s' : steps s s' -> pre s -> pre s'.
  Proof. apply steps_ind_inv. exact step_pre. Qed.

  (** ** Specifications by steps *)
  Definition okp {A} (s0 : st) (V : A -> st -> Prop) (o : outcome A) (s : st) : Prop :=
    match o with Ret a => steps s0 s /\ V a s | Fail (Panic _) => True | Fail _ => steps s0 s end.
  Definition rspec {A} (m : M A) (V : A -> st -> Prop) : Prop := forall s, pre s -> wp m (okp s V) s.

  Lemma rspec_bind {A B} (m : M A) (f : A -> M B) (V : A -> st -> Prop) (V' : B -> st -> Prop) s0 s :
    rspec m V -> pre s0 -> steps s0 s ->
    (forall a s', steps s s' -> steps s0 s' -> V a s' -> wp (f a) (okp s0 V') s') -> wp (bind m f) (okp s0 V') s.
  Proof.
    intros HR HP HS HK. apply wp_bind. eapply wp_conseq; [apply HR; eapply steps_pre; eauto|].
    intros [a|e] s' H; cbn in *.
    - destruct H as [H1 H2]. apply HK; auto. eapply steps_trans; eauto.
    - destruct e; auto; eapply steps_trans; eauto.
  Qed.
  Lemma rspec_tail {A} (m : M A) (V V' : A -> st -> Prop) s0 s :
    rspec m V -> pre s0 -> steps s0 s -> (forall a s', steps s s' -> steps s0 s' -> V a s' -> V' a s') -> wp m (okp s0 V') s.
  Proof.
    intros HR HP HS HK. eapply wp_conseq; [apply HR; eapply steps_pre; eauto|].
    intros [a|e] s' H; cbn in *.
    - destruct H as [H1 H2]. assert (steps s0 s') by (eapply steps_trans; eauto). auto.
    - destruct e; auto; eapply steps_trans; eauto.
  Qed.
  Lemma okp_ret {A} s0 (V : A -> st -> Prop) a s : steps s0 s -> V a s -> okp s0 V (Ret a) s.
  Proof. cbn; auto. Qed.
  Lemma okp_fail {A} s0 (V : A -> st -> Prop) f s : steps s0 s -> okp s0 V (Fail f) s.
  Proof. destruct f; cbn; auto. Qed.
  Definition any {A} (_ : A) (_ : st) : Prop := True.
End Steps.
