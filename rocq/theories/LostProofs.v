(** A packet that never arrives is never acknowledged (C23): a rule for invariants that are a property of the socket,
    a property of the world and a property of every datagram sent, and its use. *)
From Verif Require Export MonoProofs.
Require Import ZifyBool ZifyNat ZifyN.
Local Open Scope Z_scope.
Ltac Zify.zify_post_hook ::= Z.div_mod_to_equations.

Section Lost.
  (** The missing packet has number [q]; [lim] is the distance from the acknowledgement number at the start to [q - 1]. *)
  Variables (q lim : Z) (sent0 : list (addr * packet)).
  Hypothesis Hq : 0 <= q < 65536.
  Definition okack (z : Z) : Prop := 0 <= z < 65536 /\ (q - 1 - z) mod 65536 <= lim.
  Definition flying (p : packet) : Prop := exists h pl, p = wire h [] pl /\ okack (u16 (h_ack h)).
  Record LK (k : socket) : Prop := {
    lk_pending : s_pending_data k = [];
    lk_fits : Forall (fun p => fits p /\ seq_nr p <> q) (s_incoming_buffer k);
    lk_open : s_state k <> New /\ s_state k <> SynSent;
    lk_ack : okack (s_ack_nr k);
    lk_win : Forall flying (s_send_window k);
    lk_unsent : Forall flying (s_unsent_queue k)
  }.
  Definition LW (w : world) : Prop :=
    (forall d src p, In (RxDgram d src) (w_in w) -> packet_try_from (firstn 1520 d) = Some (Ok p) -> seq_nr p <> q) /\
    exists new, w_sent w = sent0 ++ new /\ Forall (fun x => okack (ack_nr (snd x))) new.
  Definition LS (s : st) : Prop := LK (sk s) /\ LW (wd s).
  Definition kpost {A} (V : A -> Prop) (o : outcome A) (s : st) : Prop := LS s /\ match o with Ret a => V a | _ => True end.
  Definition kp {A} (m : M A) (V : A -> Prop) : Prop := forall s, LS s -> wp m (kpost V) s.
  Definition any {A} (_ : A) : Prop := True.

  Lemma kp_conseq {A} (m : M A) (V V' : A -> Prop) : kp m V -> (forall a, V a -> V' a) -> kp m V'.
  Proof. intros H HV s HS. eapply wp_conseq; [apply H, HS|]. intros [a|e] s' [H1 H2]; split; auto. Qed.
  Lemma kp_any {A} (m : M A) V : kp m V -> kp m any. Proof. intros H. apply (kp_conseq m V); unfold any; auto. Qed.
  Lemma kp_bind {A B} (m : M A) (f : A -> M B) V V' : kp m V -> (forall a, V a -> kp (f a) V') -> kp (bind m f) V'.
  Proof.
    intros H1 H2 s HS. apply wp_bind. eapply wp_conseq; [apply H1, HS|]. intros [a|e] s' [HS' HV]; [|split; auto]. now apply H2.
  Qed.
  Lemma kp_bind_any {A B} (m : M A) (f : A -> M B) V' : kp m any -> (forall a, kp (f a) V') -> kp (bind m f) V'.
  Proof. intros H1 H2. apply (kp_bind m f any); auto. Qed.
  Lemma kp_get {B} (f : socket -> M B) V : (forall k, LK k -> kp (f k) V) -> kp (s <- get_sk ;; f s) V.
  Proof. intros H s HS. do 2 wstep. apply H; [apply HS|exact HS]. Qed.
  Lemma kp_ret {A} (a : A) (V : A -> Prop) : V a -> kp (ret a) V. Proof. intros HV s HS. wstep. now split. Qed.
  Lemma kp_fail {A} f V : kp (@fail A f) V. Proof. intros s HS. wstep. now split. Qed.
  Lemma kp_throw {A} k V : kp (@throw A k) V. Proof. intros s HS. wstep. now split. Qed.
  Lemma kp_event V : V = any -> kp event_fuel V. Proof. intros -> s HS. wstep. now split. Qed.
  Lemma kp_now : kp now_microseconds any. Proof. intros s HS. wstep. now split. Qed.
  Lemma kp_upd f : (forall k, LK k -> LK (f k)) -> kp (upd_sk f) any.
  Proof. intros H s [H1 H2]. wstep. split; [split; [apply H; exact H1|exact H2]|exact I]. Qed.
  Lemma kp_arith l lo hi wr v : kp (arith l lo hi wr v) any. Proof. intros s HS. apply wp_arith; intros; now split. Qed.
  Lemma kp_try {A} (r : result A kind) : kp (try_ r) any. Proof. destruct r; [apply kp_ret; exact I|apply kp_throw]. Qed.
  Lemma kp_unwrap {A} l (o : option A) (V : A -> Prop) : (forall a, o = Some a -> V a) -> kp (unwrap l o) V.
  Proof. intros H. destruct o as [a|]; [apply kp_ret; auto|apply kp_fail]. Qed.
  Lemma kp_send d p : okack (ack_nr p) -> kp (udp_send d p) any.
  Proof.
    intros HO s [HK (H1 & new & H2 & H3)]. assert (HS : LS (tx_state d p s)).
    { split; [exact HK|]. unfold tx_state. destruct (tx_ok s); unfold LW; sproj; [|eauto]. split; [exact H1|]. exists (new ++ [(d, p)]). rewrite H2, app_assoc. split; [reflexivity|]. apply Forall_app. auto. }
    apply wp_udp_send; intros; now split.
  Qed.
  Lemma kp_ignore {A} (m : M A) V : kp m V -> kp (ignore_result m) any.
  Proof. intros H s HS. specialize (H s HS). unfold wp, ignore_result in *. destruct (m s) as [[a|[k|l| |]] s']; cbn in *; destruct H; split; unfold any; auto. Qed.
  Lemma kp_loop {S A} f (body : S -> M (S + A)) (V : A -> Prop) : (forall x, kp (body x) (fun r => match r with inl _ => True | inr a => V a end)) -> forall x, kp (loop f body x) V.
  Proof.
    intros H. induction f as [|f IH]; intros x; cbn [loop]; [apply kp_fail|]. eapply kp_bind; [apply H|]. intros [y|a] HV; [apply IH|now apply kp_ret].
  Qed.
  Lemma kp_loop_any {S A} f (body : S -> M (S + A)) x : (forall x, kp (body x) any) -> kp (loop f body x) any.
  Proof. intros H. apply kp_loop. intros y. eapply kp_conseq; [apply H|]. intros [y'|a] _; exact I. Qed.

  Lemma lk_eq k k' : s_pending_data k' = s_pending_data k -> s_incoming_buffer k' = s_incoming_buffer k -> s_state k' = s_state k -> s_ack_nr k' = s_ack_nr k ->
    s_send_window k' = s_send_window k -> s_unsent_queue k' = s_unsent_queue k -> LK k -> LK k'.
  Proof. intros H1 H2 H3 H4 H5 H6 []. constructor; congruence. Qed.
  Lemma lk_state v k : v <> New -> v <> SynSent -> LK k -> LK (ss_state v k).
  Proof. intros H1 H2 []. constructor; sproj; auto. Qed.
  Ltac lsame := intros; solve [assumption | eapply lk_eq; [..|eassumption]; reflexivity | apply lk_state; [discriminate|discriminate|assumption]].
  Ltac kp := repeat (cbv beta zeta; match goal with
    | |- kp (bind get_sk _) _ => apply kp_get; intros
    | |- kp (bind _ _) _ => apply kp_bind_any; [|intros]
    | |- kp (loop _ _ _) any => apply kp_loop_any; intros
    | |- kp (ret _) any => apply kp_ret; exact I
    | |- kp (fail _) _ => apply kp_fail
    | |- kp event_fuel _ => apply kp_event; reflexivity
    | |- kp (upd_sk _) any => apply kp_upd; try solve [lsame]
    | |- kp now_microseconds any => apply kp_now
    | |- kp (throw _) _ => apply kp_throw
    | |- kp (throw_se _) _ => apply kp_throw
    | |- kp (try_ _) any => apply kp_try
    | |- kp (unwrap _ _) any => apply kp_unwrap; intros; exact I
    | |- kp (m_get_type _) any => apply kp_unwrap; intros; exact I
    | |- kp (ck_u16 _ _) any => apply kp_arith
    | |- kp (ck_u32 _ _) any => apply kp_arith
    | |- kp (ck_u64 _ _) any => apply kp_arith
    | |- kp (ck_i32 _ _) any => apply kp_arith
    | |- kp (ck_i64 _ _) any => apply kp_arith
    | |- kp (if ?b then _ else _) _ => destruct b eqn:?
    | |- kp (match ?x with _ => _ end) _ => destruct x eqn:?
    end); auto.

  Lemma okack_wire h e pl : okack (u16 (h_ack h)) -> okack (ack_nr (wire h e pl)). Proof. now rewrite ack_wire. Qed.
  Lemma okack_u16 z : okack z -> okack (u16 z). Proof. intros H. rewrite u16_small by apply H. exact H. Qed.
  Lemma okack_next z v : okack z -> 0 <= v < 65536 -> v <> q -> (v - z) mod 65536 = 1 \/ v = z -> okack v.
  Proof. unfold okack. intros [H1 H2] H3 H4 [H5|H5]; [|subst; auto]. split; [exact H3|]. lia. Qed.
  Lemma flying_ok p : flying p -> okack (ack_nr p). Proof. intros (h & pl & -> & H). now apply okack_wire. Qed.
  Lemma flying_ts t p : flying p -> flying (set_timestamp t p). Proof. intros (h & pl & -> & H). rewrite set_ts_wire. eexists _, pl. split; [reflexivity|exact H]. Qed.
  Lemma flying_tsd t p : flying p -> flying (set_timestamp_difference t p). Proof. intros (h & pl & -> & H). rewrite set_tsd_wire. eexists _, pl. split; [reflexivity|exact H]. Qed.
  Lemma flying_nth k i p : LK k -> nth_error (s_send_window k) i = Some p -> flying p.
  Proof. intros HK HN. apply (proj1 (Forall_forall _ _) (lk_win k HK)). eapply nth_error_In; eauto. Qed.

  (** Replies. *)
  Definition plain (r : packet) : Prop := exists h, r = wire h [] [] /\ okack (u16 (h_ack h)).
  Definition good (o : option packet) : Prop := forall r, o = Some r -> exists h e pl, r = wire h e pl /\ okack (u16 (h_ack h)).
  Lemma plain_good r : plain r -> good (Some r). Proof. intros (h & -> & H) r' [= <-]. eauto. Qed.
  Lemma kp_reply p t : kp (prepare_reply p t) plain.
  Proof.
    intros s HS. unfold wp. rewrite prepare_reply_eq. cbn [fst snd]. split; [exact HS|]. unfold reply_to. eexists. split; [reflexivity|]. cbn [h_ack]. apply okack_u16, HS.
  Qed.
  Lemma kp_reply_good p t : kp (r <- prepare_reply p t ;; ret (Some r)) good.
  Proof. eapply kp_bind; [apply kp_reply|]. intros r Hr. apply kp_ret. now apply plain_good. Qed.
  Lemma kp_sacked {B} p t (f : packet -> M B) V : (forall r, good (Some r) -> kp (f r) V) ->
    kp (reply <- prepare_reply p t ;; reply' <- attach_sack p reply ;; f reply') V.
  Proof.
    intros HF s HS. apply wp_bind. unfold wp. rewrite prepare_reply_eq. cbn [fst snd].
    match goal with |- kpost _ (fst (?m ?u)) _ => change (wp m (kpost V) u) end. apply wp_bind.
    assert (HT : LS (ticked s)) by exact HS.
    eapply wp_conseq; [apply (attach_sack_spec (fun _ _ => False) (fun _ => True)) with (t := t)|].
    { intros ? ? []. } { intros; exact I. } { intros; exact I. }
    { unfold reply_to. eexists _, _. split; [|split; [|reflexivity]]; [apply micros_range|apply u32_range]. }
    intros [r'|[k|l| |]] s' H; cbn beta iota in H; try contradiction; [|subst s'; split; [exact HT|exact I]].
    destruct H as (-> & ts & tsd & exts & _ & _ & _ & ->). apply HF; [|exact HT]. intros r [= <-]. eexists _, _, _. split; [reflexivity|]. cbn [h_ack]. apply okack_u16, HS.
  Qed.

  Lemma kp_flush_in n : (1500 <= n)%nat -> kp (flush_incoming_buffer n) any.
  Proof.
    intros HN s HS. destruct HS as [HK HW]. unfold flush_incoming_buffer. do 2 wstep. rewrite (lk_pending _ HK). cbn [is_nil negb].
    assert (HR : kpost (@any (list byte)) (Ret []) s) by (split; [now split|exact I]).
    destruct (s_incoming_buffer (sk s)) as [|p rest] eqn:EB; [wstep; exact HR|].
    assert (HF : fits p /\ seq_nr p <> q) by (pose proof (lk_fits _ HK) as H; rewrite EB in H; now inversion H). destruct HF as [HF HQ].
    apply wp_bind. apply wp_intro. intros o s1 H1.
    assert (HH : s1 = s /\ match o with Ret true => (seq_nr p - s_ack_nr (sk s)) mod 65536 = 1 \/ seq_nr p = s_ack_nr (sk s) | _ => True end).
    { revert H1. unfold ck_u16, arith, bind, ret, fail. destruct (_ =? _) eqn:E; [intros [= <- <-]; split; [reflexivity|right; lia]|]. destruct (_ && _); intros [= <- <-]; [auto|].
      split; [reflexivity|]. rewrite u16_eq. destruct ((s_ack_nr (sk s) + 1) mod 65536 =? seq_nr p) eqn:E2; [|exact I]. left. clear - E2. lia. }
    destruct HH as [-> HH]. destruct o as [[]|e]; [|wstep; exact HR|split; [now split|exact I]].
    unfold unwrap. destruct (payload p) as [pl|] eqn:EP; [|unfold wp; cbn; split; [now split|exact I]]. wstep. wstep. rewrite (payload_fits _ _ _ HF EP HN). rewrite Nat.eqb_refl.
    unfold advance_incoming_buffer. do 3 wstep. split; [|exact I]. split; [|exact HW]. sproj. unfold advance_socket. rewrite EB.
    destruct HK as [A B C D E F]. constructor; sproj; auto.
    - rewrite EB in B. now inversion B.
    - eapply okack_next; [exact D|apply seq_nr_range|exact HQ|exact HH].
  Qed.
  Lemma lk_base d t k : LK k -> LK (base_delay_socket d t k).
  Proof. intros H. unfold base_delay_socket. destruct (_ || _); cbv zeta; [lsame|]. destruct (_ <? _); lsame. Qed.
  Lemma kp_base d t : kp (update_base_delay d t) any. Proof. apply kp_upd. apply lk_base. Qed.
  Lemma kp_rto d : kp (update_congestion_timeout d) any. Proof. unfold update_congestion_timeout. kp. Qed.
  Lemma kp_process_ack i : kp (process_ack i) any.
  Proof. unfold process_ack, queuing_delay, update_congestion_window, update_current_delay. kp; auto using kp_base, kp_rto. Qed.
  Lemma lk_window w k : Forall flying w -> LK k -> LK (ss_send_window w k). Proof. intros H []. constructor; sproj; auto. Qed.
  Lemma kp_drop n : kp (drop_acked n) any.
  Proof.
    induction n as [|n IH]; cbn [drop_acked]; kp. intros k' HK'. apply lk_window; [|exact HK']. pose proof (lk_win _ H) as HW. rewrite Heql in HW. now inversion HW.
  Qed.
  Lemma kp_advance : kp advance_send_window any. Proof. unfold advance_send_window. kp. apply kp_drop. Qed.
  Lemma kp_fin : kp send_fin any.
  Proof.
    unfold send_fin. kp. apply kp_send. rewrite packet_new_wire, set_cid_wire, set_seq_wire, set_ack_wire, set_ts_wire, set_type_wire. apply okack_wire. cbn [h_ack]. apply okack_u16, H.
  Qed.
  Lemma kp_fast : kp fast_resend_packet any.
  Proof.
    unfold fast_resend_packet. kp. apply kp_send. rewrite packet_new_wire, set_type_wire, set_ts_wire, set_tsd_wire, set_cid_wire, set_seq_wire, set_ack_wire. apply okack_wire. cbn [h_ack]. apply okack_u16, H.
  Qed.
  Lemma kp_timeout : kp handle_receive_timeout any.
  Proof.
    unfold handle_receive_timeout, send_fast_resend_request. kp; auto using kp_fin, kp_fast.
    - intros k' HK'. apply lk_window; [|exact HK']. pose proof (lk_win _ H0) as HW. rewrite Heql in HW. inversion HW; subst. constructor; [now apply flying_ts|assumption].
    - apply kp_send, flying_ok, flying_ts. pose proof (lk_win _ H0) as HW. rewrite Heql in HW. now inversion HW.
  Qed.
  Definition taken (x : list byte * addr) : Prop := (length (fst x) <= 1520)%nat /\ forall p, packet_try_from (fst x) = Some (Ok p) -> seq_nr p <> q.
  Lemma kp_rx : kp (udp_recv (BUF_SIZE + HEADER_SIZE)) (fun r => match r with Ok x => taken x | Err _ => True end).
  Proof.
    intros s [HK [HE HN]]. assert (HS : forall ev rest, w_in (wd s) = ev :: rest -> LS (rx_state s)).
    { intros ev rest E. split; [exact HK|]. unfold rx_state, LW. sproj. rewrite E. cbn [tl]. split; [|exact HN]. intros d src p Hd. apply (HE d src p). rewrite E. now right. }
    apply wp_udp_recv.
    - intros _. split; [split; [exact HK|split; assumption]|exact I].
    - intros d src rest E. split; [now apply (HS _ _ E)|]. split; [apply firstn_le_length|]. intros p Hp. apply (HE d src p); [rewrite E; now left|exact Hp].
    - intros k rest E. split; [now apply (HS _ _ E)|exact I].
    - intros rest E. split; [now apply (HS _ _ E)|exact I].
  Qed.
  Lemma kp_wait : kp wait_datagram taken.
  Proof.
    unfold wait_datagram. apply kp_bind_any; [kp|]. intros fuel. apply kp_loop. intros r. apply kp_get. intros k HK. destruct (_ <=? _).
    { apply kp_bind_any; [kp|]. intros _. apply kp_throw. }
    eapply kp_bind; [apply kp_rx|]. intros [x|e] HX; [apply kp_ret; exact HX|]. destruct (is_timeout e); [|apply kp_throw].
    apply kp_bind_any; [apply kp_timeout|]. intros _. apply kp_ret. exact I.
  Qed.

  Section Rec.
    Variable rec : nat -> M (list byte * addr).
    Hypothesis Hrec : forall n, (1500 <= n)%nat -> kp (rec n) any.
    Lemma kp_send_packet p : flying p -> kp (send_packet rec p) flying.
    Proof.
      intros HP. unfold send_packet. apply kp_get. intros k HK. cbv zeta. apply kp_bind_any; [kp|]. intros t. apply kp_bind_any; [kp|]. intros fuel.
      apply kp_bind_any; [kp; apply Hrec; unfold BUF_SIZE; lia|]. intros _. apply kp_get. intros k' HK'. destruct (_ <? _); [now apply kp_ret|].
      apply kp_bind_any; [kp|]. intros t'. assert (HF : flying (set_timestamp_difference (s_their_delay k') (set_timestamp t' p))) by now apply flying_tsd, flying_ts.
      apply kp_bind_any; [now apply kp_send, flying_ok|]. intros r. apply kp_bind_any; [kp|]. intros _. now apply kp_ret.
    Qed.
    Lemma kp_resend l : kp (resend_lost_packet rec l) any.
    Proof.
      unfold resend_lost_packet. apply kp_get. intros k HK. destruct (position _ _) as [pos|]; [|kp]. eapply kp_bind; [apply (kp_unwrap _ _ flying); intros a Ha; eapply flying_nth; eassumption|].
      intros p HP. eapply kp_ignore, kp_send_packet, HP.
    Qed.
    Lemma kp_gaps a bits l : forall i loss, kp (resend_gaps rec a i bits l loss) any.
    Proof. induction bits as [|[] bits IH]; intros; cbn [resend_gaps]; kp. apply kp_resend. Qed.
    Lemma kp_exts a exts : forall loss, kp (process_extensions rec a exts loss) any.
    Proof. induction exts as [|e exts IH]; intros; cbn [process_extensions]; kp; [apply kp_resend|apply kp_gaps]. Qed.
    Lemma kp_state p : kp (handle_state_packet rec p) any.
    Proof. unfold handle_state_packet, note_ack, finish_state_packet. kp; auto using kp_process_ack, kp_exts, kp_resend, kp_advance. Qed.
    Lemma kp_none {A} (m : M A) : kp m any -> kp (m ;;; ret (@None packet)) good.
    Proof. intros H. apply kp_bind_any; [exact H|]. intros _. apply kp_ret. intros r [=]. Qed.
    Lemma kp_dispatch p ty src : kp (dispatch rec p ty src) good.
    Proof.
      unfold dispatch. apply kp_get. intros k HK. destruct (lk_open _ HK) as [H1 H2].
      assert (HS : kp (handle_state_packet rec p ;;; ret None) good) by (apply kp_none, kp_state).
      assert (HD : kp (handle_data_packet p) good).
      { unfold handle_data_packet. apply kp_get. intros k' HK'. cbv zeta. apply kp_sacked. intros r Hr. now apply kp_ret. }
      assert (HF : kp (reply <- prepare_reply p PState ;; reply' <- attach_sack p reply ;; upd_sk (ss_state Closed) ;;; ret (Some reply')) good).
      { apply kp_sacked. intros r Hr. apply kp_bind_any; [kp|]. intros _. now apply kp_ret. }
      assert (HR : kp (upd_sk (ss_state ResetReceived) ;;; throw_se ConnectionReset) good) by (apply kp_bind_any; [kp|intros _; apply kp_throw]).
      assert (HO : kp (throw_se Other) good) by apply kp_throw.
      assert (HA : kp ((if ack_nr p =? s_seq_nr k then upd_sk (ss_state Closed) else ret tt) ;;; ret None) good) by (apply kp_none; kp).
      pose proof (kp_reply_good p PReset) as HY. pose proof (kp_reply_good p PState) as HZ.
      destruct (s_state k); try congruence; destruct ty; assumption.
    Qed.
    Lemma kp_handle p src : seq_nr p <> q -> kp (handle_packet rec p src) good.
    Proof.
      intros HQ. unfold handle_packet. apply kp_bind_any.
      { apply kp_upd. intros k HK. destruct (_ =? 1) eqn:E; [|exact HK]. destruct HK as [A B C D F G]. constructor; sproj; auto.
        eapply okack_next; [exact D|apply seq_nr_range|exact HQ|]. left. rewrite u16_eq in E. clear - E. lia. }
      intros _. apply kp_bind_any; [kp|]. intros ty. apply kp_get. intros k HK. destruct (_ && _); [apply kp_reply_good|].
      apply kp_bind_any; [kp|]. intros _. apply kp_bind_any; [kp|]. intros t. apply kp_bind_any; [kp|]. intros _. apply kp_dispatch.
    Qed.
    Lemma kp_process n b src : (1500 <= n)%nat -> taken (b, src) -> kp (process_datagram rec n b src) any.
    Proof.
      intros HN [HB HQ]. unfold process_datagram. destruct (parse_total b) as [[p|e] E]; rewrite E; cbn [unwrap]; match goal with |- kp (bind (ret ?a) ?f) _ => change (kp (f a) any) end; cbv beta iota; [|kp].
      assert (HF : fits p) by (pose proof (parse_inv b p E) as [-> _]; exact HB). specialize (HQ p E).
      eapply kp_bind; [now apply kp_handle|]. intros reply HG. apply kp_bind_any.
      { destruct reply as [r|]; [|kp]. destruct (HG r eq_refl) as (h & ex & pl & -> & HO). rewrite set_wnd_wire. kp. apply kp_send, okack_wire, HO. }
      intros _. apply kp_bind_any; [kp|]. intros ty. apply kp_get. intros k HK. apply kp_bind_any; [|intros _; apply kp_bind_any; [now apply kp_flush_in|intros; kp]].
      unfold insert_into_buffer. kp. intros k' [A B C D F G]. constructor; sproj; auto.
      clear - B HF HQ. unfold insert_packet. destruct (match last_opt _ with Some _ => _ | None => _ end); [apply Forall_app; auto|].
      cbv zeta. destruct (match nth_error _ _ with Some _ => _ | None => _ end); [|exact B].
      match goal with |- Forall _ (firstn ?i _ ++ _) => rewrite <- (firstn_skipn i) in B end. apply Forall_app in B as [H1 H2]. apply Forall_app. auto.
    Qed.
    Lemma kp_body n : (1500 <= n)%nat -> kp (recv_body rec n) any.
    Proof. intros HN. unfold recv_body. eapply kp_bind; [apply kp_wait|]. intros [b src] HT. now apply kp_process. Qed.
  End Rec.
  Lemma kp_fuel f : forall n, (1500 <= n)%nat -> kp (recv_fuel f n) any.
  Proof. induction f as [|f IH]; intros n HN; cbn [recv_fuel]; [apply kp_fail|]. now apply kp_body. Qed.
  Lemma kp_recv n : (1500 <= n)%nat -> kp (recv n) any. Proof. intros HN. unfold recv. kp. now apply kp_fuel. Qed.
  Lemma kp_recv0 : kp (recv BUF_SIZE) any. Proof. apply kp_recv. unfold BUF_SIZE. lia. Qed.
  Lemma kp_recv_from n : (1500 <= n)%nat -> kp (recv_from n) any.
  Proof. intros HN. unfold recv_from. apply kp_bind_any; [now apply kp_flush_in|]. intros d. kp. now apply kp_recv. Qed.
  Lemma kp_flush : kp flush any. Proof. unfold flush. kp. apply kp_recv0. Qed.
  Lemma kp_close : kp close any. Proof. unfold close. kp; auto using kp_flush, kp_fin, kp_recv0. Qed.
  Lemma kp_sending : kp send any.
  Proof.
    unfold send. apply kp_get. intros k0 HK0. apply kp_loop_any. intros _. apply kp_get. intros k HK. destruct (s_unsent_queue k) as [|p rest] eqn:EU; [kp|].
    pose proof (lk_unsent _ HK) as HU. rewrite EU in HU. inversion HU as [|? ? HP HR]; subst. apply kp_bind_any.
    { apply kp_upd. intros k' [A B C D F G]. constructor; sproj; auto. }
    intros _. eapply kp_bind; [apply kp_send_packet; [intros; now apply kp_recv|exact HP]|]. intros p' HP'. kp.
    intros k' [A B C D F G]. constructor; sproj; auto. apply Forall_app. auto.
  Qed.
  Lemma lk_queue cs : forall k, LK k -> LK (fold_left (fun s c => queue_chunk c s) cs k).
  Proof.
    induction cs as [|c cs IH]; intros k HK; [exact HK|]. cbn [fold_left]. apply IH. destruct HK as [A B C D F G]. unfold queue_chunk. constructor; sproj; auto.
    apply Forall_app. split; [exact G|]. constructor; [|constructor]. rewrite chunk_packet_wire. eexists _, _. split; [reflexivity|]. cbn [h_ack]. now apply okack_u16.
  Qed.
  Lemma kp_send_to d : kp (send_to d) any.
  Proof. unfold send_to. kp; [apply lk_queue|apply kp_sending]. Qed.
  Lemma kp_run_op o : roomy o -> kp (run_op o) any.
  Proof.
    intros HO. destruct o; cbn [run_op roomy] in *; kp; auto using kp_recv_from, kp_send_to, kp_flush, kp_close. unfold peer_addr. kp.
  Qed.
  Lemma kp_run_ops ops : Forall roomy ops -> forall s, LS s -> LS (snd (run_ops ops s)).
  Proof.
    induction 1 as [|o ops HO HF IH]; intros s HS; cbn [run_ops]; [exact HS|]. pose proof (kp_run_op o HO s HS) as H1. unfold wp in H1. destruct (run_op o s) as [r s1]. cbn [fst snd] in H1.
    destruct H1 as [H1 _]. specialize (IH s1 H1). destruct r as [v|[k|l| |]]; try (destruct (run_ops ops s1); exact IH). exact H1.
  Qed.
End Lost.
